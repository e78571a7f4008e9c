From Verif Require Import Model.Base Model.NDArray Model.FitParam Model.Minimise Model.Limit.
From Verif Require Import Spec.ArraySpec Spec.SearchSpec Spec.LimitSpec.
From Verif Require Import Proofs.QcLemmas Proofs.NDArrayLemmas Proofs.MinimiseLemmas Proofs.SearchLemmas.
From Coq Require Import Lia.
Local Open Scope nat_scope.

Lemma first_above_some lim l : forall k i, first_above lim l k = Some i ->
  k <= i < k + length l /\ (lim < nth (i - k) l 0)%Qc /\ (forall j, k <= j < i -> (nth (j - k) l 0 <= lim)%Qc).
Proof.
  induction l as [|x l IH]; intros k i H; cbn [first_above] in H; [discriminate|].
  destruct (qlt lim x) eqn:E.
  - injection H as <-. rewrite Nat.sub_diag. apply qlt_true in E. cbn. repeat split; try lia. exact E.
  - apply IH in H. destruct H as (A & B & C). cbn [length]. repeat split; try lia.
    + replace (i - k) with (S (i - S k)) by lia. exact B.
    + intros j Hj. destruct (Nat.eq_dec j k) as [->|].
      * rewrite Nat.sub_diag. cbn. now apply qlt_false.
      * replace (j - k) with (S (j - S k)) by lia. cbn. apply C. lia.
Qed.
Lemma first_above_none lim l : forall k, first_above lim l k = None -> forall j, j < length l -> (nth j l 0 <= lim)%Qc.
Proof.
  induction l as [|x l IH]; intros k H j Hj; cbn in Hj; [lia|].
  cbn [first_above] in H. destruct (qlt lim x) eqn:E; [discriminate|].
  destruct j as [|j]; cbn; [now apply qlt_false|]. apply (IH _ H). lia.
Qed.
Lemma entries_length a n sub : ashape a = n :: sub -> length (entries a) = n.
Proof. intro S. unfold entries. rewrite S, map_length, seq_length. reflexivity. Qed.
Lemma entries_nth a n sub i : ashape a = n :: sub -> i < n -> nth i (entries a) 0%Qc = entry_total a i.
Proof.
  intros S L. unfold entries, entry_total. rewrite S. cbn [tl].
  set (f := fun i => sum_over sub (fun j => aget a (i :: j))).
  rewrite (nth_indep _ 0%Qc (f 0)) by (now rewrite map_length, seq_length).
  rewrite map_nth, seq_nth by lia. unfold f. cbn [plus]. now rewrite total_sum_over.
Qed.

Lemma crossing_unique f b n lim i j : first_crossing f b n lim i -> first_crossing f b n lim j -> i = j.
Proof.
  intros (A & B & C) (A' & B' & C').
  destruct (Nat.lt_trichotomy i j) as [H|[H|H]]; [|exact H|]; exfalso.
  - assert (X := C' i ltac:(lia)). qlra.
  - assert (X := C j ltac:(lia)). qlra.
Qed.
Lemma crossing_mono f b n l1 l2 i j : (l1 <= l2)%Qc -> first_crossing f b n l1 i -> first_crossing f b n l2 j -> i <= j.
Proof.
  intros L (A & B & C) (A' & B' & C'). destruct (le_lt_dec i j) as [H|H]; [exact H|exfalso].
  assert (X := C j ltac:(lia)). qlra.
Qed.

Lemma array_limit_l counts a lim n sub : ashape a = n :: sub -> length counts = n -> 0 < n ->
  match get_array_limit counts a lim with
  | Ok x => exists i, first_crossing (entry_total a) 0 n lim i /\ x = nth i counts 0%Qc
  | Err e => e = ELimitError /\ forall i, i < n -> (entry_total a i <= lim)%Qc
  end.
Proof.
  intros S L P. unfold get_array_limit. rewrite S, L, Nat.eqb_refl. cbn [negb].
  destruct (n =? 0) eqn:E; [apply Nat.eqb_eq in E; lia|].
  assert (EL := entries_length a n sub S).
  destruct (first_above lim (entries a) 0) as [i|] eqn:F.
  - apply first_above_some in F. destruct F as (A & B & C). rewrite EL in A. exists i. split; [|reflexivity].
    rewrite Nat.sub_0_r in B. rewrite (entries_nth a n sub) in B by (exact S || lia).
    split; [lia|]. split; [exact B|]. intros j Hj. specialize (C j Hj). rewrite Nat.sub_0_r in C.
    now rewrite (entries_nth a n sub) in C by (exact S || lia).
  - split; [reflexivity|]. intros i Hi. assert (X := first_above_none lim _ _ F i ltac:(lia)).
    now rewrite (entries_nth a n sub) in X by (exact S || lia).
Qed.

(** ** get_limit *)
Section GL.
Context {St : Type}.
Variable fit : St -> option Qc -> St * res fitout.

Lemma set_nth_length {A} i (x : A) l : length (set_nth i x l) = length l.
Proof. revert i. induction l as [|y l IH]; intros [|i]; cbn; auto. Qed.
Lemma set_nth_get {A} i (x d : A) l j : i < length l -> nth j (set_nth i x l) d = if j =? i then x else nth j l d.
Proof.
  revert i j. induction l as [|y l IH]; intros i j H; cbn in H; [lia|].
  destruct i as [|i]; destruct j as [|j]; cbn; try reflexivity. apply IH. lia.
Qed.

(** Invariant of the scan: the rows below [i] hold the fits made. *)
Definition holds (n : nat) (stats : ndarray) (rows : pen_rows) (done : list fitout) : Prop :=
  ashape stats = [n] /\ length rows = n /\ length done <= n /\
  (forall j, j < length done -> aget stats [j] = stat_of (nth j done nofit) /\ qsum (nth j rows []) = penalty_of (nth j done nofit)) /\
  (forall j, length done <= j -> qsum (nth j rows []) = 0%Qc).

Lemma one_scale_ok n st stats rows done x st1 f :
  holds n stats rows done -> length done < n -> number f ->
  fit st (if isclose x 0 then None else Some x) = (st1, Ok f) ->
  exists stats' rows', one_scale fit st stats rows (length done) x = (st1, Ok (stats', rows')) /\
    holds n stats' rows' (done ++ [f]).
Proof.
  intros (S & R & L & D & Z) Lt [v Nf] F. unfold one_scale. rewrite F. cbn [rbind].
  destruct (aassign_ok stats [n] [] [length done] (as_array (fo_stat f))) as (a' & A1 & A2 & A3).
  { exact S. } { repeat constructor. exact Lt. } { now rewrite Nf. }
  rewrite A1. cbn [rbind].
  assert (A4 : forall j, j < n -> aget a' [j] = if j =? length done then v else aget stats [j]).
  { intros j Hj. specialize (A3 [j] []). cbn [app] in A3. rewrite A3; [|repeat constructor; exact Hj|constructor].
    cbn [idx_eqb]. rewrite Bool.andb_true_r. now rewrite Nf. }
  set (P := fo_pens f).
  assert (exists rows', match P with Some ps => set_pen_row rows (length done) ps | None => Ok rows end = Ok rows' /\
            length rows' = n /\ (forall j, qsum (nth j rows' []) = if j =? length done then penalty_of f else qsum (nth j rows []))) as (rows' & B1 & B2 & B3).
  { unfold penalty_of. fold P. destruct P as [ps|] eqn:EP.
    - destruct ps as [|p ps].
      + exists rows. cbn. repeat split; [exact R|]. intro j. destruct (j =? length done) eqn:E; [|reflexivity].
        apply Nat.eqb_eq in E. subst j. now rewrite Z by lia.
      + unfold set_pen_row. rewrite R. assert (X : length done <? n = true) by (now apply Nat.ltb_lt). rewrite X.
        eexists. split; [reflexivity|]. split; [now rewrite set_nth_length|].
        intro j. rewrite set_nth_get by lia. now destruct (j =? length done).
    - exists rows. repeat split; [exact R|]. intro j. destruct (j =? length done) eqn:E; [|reflexivity].
      apply Nat.eqb_eq in E. subst j. now rewrite Z by lia. }
  rewrite B1. cbn [rbind]. exists a', rows'. split; [reflexivity|].
  unfold holds. rewrite app_length. cbn [length]. repeat split; try assumption; try lia.
  - intros. destruct (Nat.eq_dec j (length done)) as [->|].
    + rewrite app_nth2, Nat.sub_diag by lia. cbn [nth]. rewrite A4 by lia. rewrite Nat.eqb_refl. unfold stat_of. now rewrite Nf.
    + rewrite app_nth1 by lia. rewrite A4 by lia. assert (X : j =? length done = false) by (apply Nat.eqb_neq; lia). rewrite X. apply D. lia.
  - intros. destruct (Nat.eq_dec j (length done)) as [->|].
    + rewrite app_nth2, Nat.sub_diag by lia. cbn [nth]. now rewrite B3, Nat.eqb_refl.
    + rewrite app_nth1 by lia. rewrite B3. assert (X : j =? length done = false) by (apply Nat.eqb_neq; lia). rewrite X. apply D. lia.
  - intros j Hj. rewrite B3. assert (X : j =? length done = false) by (apply Nat.eqb_neq; lia). rewrite X. apply Z. lia.
Qed.

Lemma all_scales_ok n : forall l fs st st' stats rows done,
  holds n stats rows done -> length done + length l <= n -> Forall number fs -> fits_made fit st l st' fs ->
  exists stats' rows', all_scales fit st stats rows (length done) l = (st', Ok (stats', rows')) /\
    holds n stats' rows' (done ++ fs).
Proof.
  induction l as [|x l IH]; intros [|f fs] st st' stats rows done H L N F; cbn [fits_made] in F; try contradiction.
  - subst st'. exists stats, rows. rewrite app_nil_r. split; [reflexivity|exact H].
  - destruct F as (s1 & F1 & F2). inversion N as [|? ? N1 N2]; subst. cbn [length] in L.
    destruct (one_scale_ok n st stats rows done x s1 f H ltac:(lia) N1 F1) as (a & r & E & H').
    cbn [all_scales]. rewrite E.
    destruct (IH fs s1 st' a r (done ++ [f]) H') as (a' & r' & E' & H'').
    { rewrite app_length. cbn. lia. } { exact N2. } { exact F2. }
    rewrite app_length in E'. cbn [length] in E'. rewrite Nat.add_1_r in E'. exists a', r'.
    split; [exact E'|]. now rewrite <- app_assoc in H''.
Qed.
Lemma all_scales_err : forall l st st' stats rows n e fs pre x post st1,
  l = pre ++ x :: post -> holds n stats rows fs -> length fs + length l <= n ->
  forall fs', Forall number fs' -> fits_made fit st pre st1 fs' ->
  fit st1 (if isclose x 0 then None else Some x) = (st', Err e) ->
  all_scales fit st stats rows (length fs) l = (st', Err e).
Proof.
  induction l as [|y l IH]; intros st st' stats rows n e fs pre x post st1 EL H L fs' N F E.
  - now destruct pre.
  - cbn [all_scales]. destruct pre as [|y' pre].
    + cbn in EL. injection EL as -> ->. destruct fs'; [|contradiction]. cbn in F. subst st1.
      unfold one_scale. rewrite E. reflexivity.
    + cbn in EL. injection EL as <- ->. destruct fs' as [|f fs']; [contradiction|]. destruct F as (s1 & F1 & F2).
      inversion N as [|? ? N1 N2]; subst. cbn [length] in L.
      destruct (one_scale_ok n st stats rows fs y s1 f H ltac:(lia) N1 F1) as (a & r & E1 & H'). rewrite E1.
      assert (X : all_scales fit s1 a r (length (fs ++ [f])) (pre ++ x :: post) = (st', Err e)).
      { eapply IH; [reflexivity|exact H'|rewrite app_length; cbn [length]; lia|exact N2|exact F2|exact E]. }
      rewrite app_length in X. cbn [length] in X. now rewrite Nat.add_1_r in X.
Qed.

Lemma first_row_spec g b k : forall s, s = b ->
  match first_row g (seq s k) with
  | Some r => s <= r < s + k /\ g r = true /\ forall j, s <= j < r -> g j = false
  | None => forall j, s <= j < s + k -> g j = false
  end.
Proof.
  clear fit. revert b. induction k as [|k IH]; intros b s ->; cbn [seq first_row]; [intros; lia|].
  destruct (g b) eqn:E; [repeat split; try lia; exact E|].
  specialize (IH (S b) (S b) eq_refl). destruct (first_row g (seq (S b) k)) as [r|].
  - destruct IH as (A & B & C). repeat split; try lia; [exact B|]. intros j Hj. destruct (Nat.eq_dec j b) as [->|]; [exact E|]. apply C. lia.
  - intros j Hj. destruct (Nat.eq_dec j b) as [->|]; [exact E|]. apply IH. lia.
Qed.
Lemma c_order_one n : c_order [n] = map (fun i => [i]) (seq 0 n).
Proof.
  rewrite c_order_all. cbn [all_idx]. induction (seq 0 n) as [|x l IH]; [reflexivity|]. cbn in *. now rewrite IH.
Qed.
Lemma nth_map_seq (g : nat -> Qc) n j : j < n -> nth j (map g (seq 0 n)) 0%Qc = g j.
Proof.
  intro H. rewrite (nth_indep _ 0%Qc (g 0)) by (now rewrite map_length, seq_length).
  now rewrite map_nth, seq_nth.
Qed.

Lemma find_limit_l scales sigmas n stats rows fs m lim :
  holds n stats rows fs -> length fs = n -> 0 < n -> length scales = n ->
  Forall (fun s => s <> None) sigmas ->
  let T := fun j => (stat_of (nth j fs nofit) - m + penalty_of (nth j fs nofit))%Qc in
  exists b, first_least (fun j => stat_of (nth j fs nofit)) n b /\
    match find_limit scales sigmas stats rows (as_array (RNum m)) lim with
    | Ok x => exists j, first_crossing T b n lim j /\ x = nth j scales 0%Qc
    | Err e => e = ELimitError /\ forall j, b <= j < n -> (T j <= lim)%Qc
    end.
Proof.
  intros (S & R & _ & D & _) LF P LS SG T. rewrite LF in D. unfold find_limit.
  assert (B : exists d, badd stats (amap Qcopp (as_array (RNum m))) = Ok d /\ ashape d = [n] /\
            forall j, j < n -> aget d [j] = (stat_of (nth j fs nofit) - m)%Qc).
  { unfold badd, bc_shape. rewrite S. cbn. eexists. split; [reflexivity|]. split; [reflexivity|].
    intros j Hj. cbn. replace (if n =? 1 then 0 else j) with j.
    - destruct (D j Hj) as [D1 _]. rewrite D1. ring.
    - destruct (n =? 1) eqn:E; [apply Nat.eqb_eq in E; lia|reflexivity]. }
  destruct B as (d & B1 & B2 & B3). rewrite B1. cbn [rbind]. rewrite B2, c_order_one, map_map.
  set (v := fun j => aget d [j]).
  destruct (argmin_list_spec (map v (seq 0 n))) as (b & A1 & A2 & A3 & A4 & A5).
  { destruct n; [lia|discriminate]. }
  rewrite A1. cbn [rbind]. rewrite map_length, seq_length in A2, A4. exists b.
  assert (V : forall j, j < n -> nth j (map v (seq 0 n)) 0%Qc = (stat_of (nth j fs nofit) - m)%Qc).
  { intros j Hj. rewrite nth_map_seq by exact Hj. now apply B3. }
  rewrite V in A3 by exact A2. rewrite <- A3 in A4, A5.
  split.
  { split; [exact A2|]. split; intros j Hj.
    - specialize (A4 j Hj). rewrite V in A4 by exact Hj. qlra.
    - specialize (A5 j Hj). rewrite V in A5 by lia. qlra. }
  unfold get_full_stats. rewrite B2. cbn [hd]. rewrite R, Nat.leb_refl. cbn [rbind].
  set (full := ND [n] (fun idx => full_row d rows (hd 0 idx))).
  assert (FU : forall j, j < n -> aget full [j] = T j).
  { intros j Hj. cbn. unfold full_row. rewrite B2. cbn [tl sum_over]. rewrite B3 by exact Hj.
    destruct (D j Hj) as [_ D2]. rewrite D2. reflexivity. }
  assert (RA : forall j, j < n -> row_above full lim j = qlt lim (T j)).
  { intros j Hj. unfold row_above. cbn [full ashape tl]. rewrite c_order_all. cbn [all_idx existsb]. rewrite FU by exact Hj.
    now rewrite Bool.orb_false_r. }
  assert (LG : forall i, i < n -> log_params sigmas rows i = Ok tt).
  { intros i Hi. unfold log_params. destruct sigmas as [|s0 sg]; [reflexivity|]. rewrite R.
    assert (X : n <=? i = false) by (apply Nat.leb_gt; lia). rewrite X.
    assert (Y : forallb (fun s => match s with Some _ => true | None => false end) (s0 :: sg) = true).
    { apply forallb_forall. intros s Hs. rewrite Forall_forall in SG. specialize (SG s Hs). destruct s; congruence. }
    now rewrite Y. }
  assert (NL : no_limit scales sigmas full rows b = Err ELimitError).
  { unfold no_limit, rows_from. cbn [full ashape hd tl]. fold full.
    assert (FM : forall l, flat_map (fun i => map (fun j => aget full (i :: j)) (c_order [])) l = map (fun i => aget full [i]) l).
    { induction l as [|x l IH]; [reflexivity|]. cbn [flat_map map]. rewrite IH. rewrite c_order_all. reflexivity. }
    fold full. change (fun idx => full_row d rows (hd 0 idx)) with (aget full).
    rewrite FM, map_map.
    destruct (argmin_list_spec (map (fun x => - aget full [x]) (seq b (n - b)))%Qc) as (k & K1 & K2 & _).
    { destruct (n - b) eqn:E; [lia|discriminate]. }
    rewrite map_length, seq_length in K2. rewrite K1. cbn [rbind]. rewrite LS.
    assert (X : b + k <? n = true) by (apply Nat.ltb_lt; lia). rewrite X. cbn [rbind]. rewrite LG by lia. cbn [rbind].
    assert (Y : k <? n = true) by (apply Nat.ltb_lt; lia). rewrite Y. reflexivity. }
  unfold rows_from. cbn [full ashape hd]. fold full.
  assert (FR := first_row_spec (row_above full lim) b (n - b) b eq_refl).
  destruct (first_row (row_above full lim) (seq b (n - b))) as [r|].
  - destruct FR as (F1 & F2 & F3). rewrite LS. assert (X : r <? n = true) by (apply Nat.ltb_lt; lia). rewrite X.
    rewrite LG by lia. exists r. split; [|reflexivity]. split; [lia|]. rewrite RA in F2 by lia. split; [now apply qlt_true|].
    intros j Hj. assert (G := F3 j Hj). rewrite RA in G by lia. now apply qlt_false.
  - rewrite NL. split; [reflexivity|]. intros j Hj. assert (G := FR j ltac:(lia)). rewrite RA in G by lia. now apply qlt_false.
Qed.

Lemma holds_init n k : holds n (azeros [n]) (repeat (repeat 0%Qc k) n) [].
Proof.
  split; [reflexivity|]. split; [apply repeat_length|]. split; [cbn; lia|]. split; [cbn; intros; lia|].
  intros j _. assert (Z : forall k, qsum (repeat 0%Qc k) = 0%Qc).
  { induction k0 as [|k0 IH]; [reflexivity|]. cbn. unfold qsum in IH. rewrite IH. ring. }
  destruct (le_lt_dec n j) as [H|H].
  - rewrite nth_overflow by (now rewrite repeat_length). reflexivity.
  - rewrite (nth_indep _ [] (repeat 0%Qc k)) by (now rewrite repeat_length). now rewrite nth_repeat.
Qed.

Lemma get_limit_l scales sigmas st lim ms st1 m st2 fs :
  scales <> [] -> Forall (fun s => s <> None) sigmas ->
  match ms with
  | Some x => x <> 0%Qc /\ st1 = st /\ m = x
  | None => exists f, fit st None = (st1, Ok f) /\ fo_stat f = RNum m
  end ->
  fits_made fit st1 scales st2 fs -> Forall number fs ->
  let n := length scales in
  let T := fun j => (stat_of (nth j fs nofit) - m + penalty_of (nth j fs nofit))%Qc in
  exists b, first_least (fun j => stat_of (nth j fs nofit)) n b /\
    match get_limit fit scales n [n] sigmas st lim ms with
    | (st', Ok x) => st' = st2 /\ exists j, first_crossing T b n lim j /\ x = nth j scales 0%Qc
    | (st', Err e) => st' = st2 /\ e = ELimitError /\ forall j, b <= j < n -> (T j <= lim)%Qc
    end.
Proof.
  intros NE SG M F N n T.
  assert (LF : length fs = n).
  { unfold n. clear - F. revert fs st1 F. induction scales as [|x l IH]; intros [|f fs] st1 F; cbn in *; try contradiction; [reflexivity|].
    destruct F as (s & _ & F). now rewrite (IH _ _ F). }
  assert (P : 0 < n) by (unfold n; destruct scales; [congruence|cbn; lia]).
  destruct (all_scales_ok n scales fs st1 st2 _ _ [] (holds_init n (length sigmas))) as (a & r & E & H).
  { cbn. fold n. lia. } { exact N. } { exact F. }
  cbn [length app] in E, H.
  destruct (find_limit_l scales sigmas n a r fs m lim H LF P eq_refl SG) as (b & B1 & B2).
  exists b. split; [exact B1|]. unfold get_limit.
  assert (X : (let given := match ms with Some m0 => negb (qeq m0 0) | None => false end in
     if given then (st, Ok (RNum match ms with Some m0 => m0 | None => 0%Qc end))
     else let '(st', r0) := fit st None in (st', rmap fo_stat r0)) = (st1, Ok (RNum m))).
  { cbv zeta. destruct ms as [x|].
    - destruct M as (M1 & -> & ->). destruct (qeq x 0) eqn:Q; [apply qeq_iff in Q; contradiction|reflexivity].
    - destruct M as (f & M1 & M2). rewrite M1. cbn. now rewrite M2. }
  cbv zeta in X. rewrite X. cbn [stats_shape]. rewrite E.
  destruct (find_limit scales sigmas a r (as_array (RNum m)) lim) as [x|e]; auto.
Qed.

Lemma get_limit_zero_l scales k sh sigmas st lim : get_limit fit scales k sh sigmas st lim (Some 0%Qc) = get_limit fit scales k sh sigmas st lim None.
Proof. reflexivity. Qed.
Lemma get_limit_raises_zero_l scales k sh sigmas st lim st1 e : fit st None = (st1, Err e) ->
  get_limit fit scales k sh sigmas st lim None = (st1, Err e).
Proof. intro H. unfold get_limit. now rewrite H. Qed.
Lemma get_limit_raises_l scales sigmas st lim st1 m f pre x post st2 st3 fs e :
  fit st None = (st1, Ok f) -> fo_stat f = RNum m ->
  scales = pre ++ x :: post -> fits_made fit st1 pre st2 fs -> Forall number fs ->
  fit st2 (if isclose x 0 then None else Some x) = (st3, Err e) ->
  get_limit fit scales (length scales) [length scales] sigmas st lim None = (st3, Err e).
Proof.
  intros Z M S F N E. unfold get_limit. rewrite Z. cbn [rmap]. rewrite M. cbn [stats_shape].
  set (n := length scales).
  assert (X : all_scales fit st1 (azeros [n]) (repeat (repeat 0%Qc (length sigmas)) n) (length (@nil fitout)) scales = (st3, Err e)).
  { eapply all_scales_err; [exact S|apply holds_init|cbn; fold n; lia|exact N|exact F|exact E]. }
  cbn [length] in X. now rewrite X.
Qed.
End GL.

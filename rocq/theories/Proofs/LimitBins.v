(** get_limit with one statistic per bin. *)
From Coq Require Import Lia.
From Verif Require Import Model.Base Model.NDArray Model.FitParam Model.Minimise Model.Limit.
From Verif Require Import Spec.ArraySpec Spec.SearchSpec Spec.LimitSpec Spec.LimitBinsSpec.
From Verif Require Import Proofs.QcLemmas Proofs.NDArrayLemmas Proofs.RebinLemmas Proofs.MinimiseLemmas Proofs.SearchLemmas Proofs.LimitLemmas.
Local Open Scope nat_scope.

Lemma nth_blocks (g : nat -> Qc) B : 0 < B -> forall m b k, k < m * B ->
  nth k (flat_map (fun i => repeat (g i) B) (seq b m)) 0%Qc = g (b + k / B).
Proof.
  intros P. induction m as [|m IH]; intros b k H; [lia|]. cbn [seq flat_map].
  destruct (le_lt_dec B k) as [L|L].
  - rewrite app_nth2 by (now rewrite repeat_length). rewrite repeat_length, IH by lia. f_equal.
    assert (E : k / B = S ((k - B) / B)).
    { replace k with (k - B + 1 * B) at 1 by lia. rewrite Nat.div_add by lia. lia. }
    rewrite E. lia.
  - rewrite app_nth1 by (now rewrite repeat_length). rewrite Nat.div_small by exact L. rewrite Nat.add_0_r.
    rewrite (nth_indep _ 0%Qc (g b)) by (now rewrite repeat_length). apply nth_repeat.
Qed.
Lemma blocks_length (g : nat -> Qc) B m : forall b, length (flat_map (fun i => repeat (g i) B) (seq b m)) = m * B.
Proof. induction m as [|m IH]; intro b; [reflexivity|]. cbn [seq flat_map]. rewrite app_length, repeat_length, IH. lia. Qed.

Lemma argmax_blocks (T : nat -> Qc) B b n : 0 < B -> b < n ->
  exists r, argmin_list (map Qcopp (flat_map (fun i => repeat (T i) B) (seq b (n - b)))) = Ok ((r - b) * B) /\ first_greatest T b n r.
Proof.
  intros P L. set (l := flat_map (fun i => repeat (T i) B) (seq b (n - b))).
  assert (LL : length l = (n - b) * B) by apply blocks_length.
  assert (NZ : 0 < (n - b) * B) by nia.
  assert (V : forall k, k < (n - b) * B -> nth k (map Qcopp l) 0%Qc = (- T (b + k / B)%nat)%Qc).
  { intros k K. change 0%Qc with (Qcopp 0%Qc) at 1. rewrite map_nth. f_equal. now apply nth_blocks. }
  destruct (argmin_list_spec (map Qcopp l)) as (k & A1 & A2 & A3 & A4 & A5).
  { intro Z. apply (f_equal (@length _)) in Z. rewrite map_length, LL in Z. cbn in Z. lia. }
  rewrite map_length, LL in A2, A4. rewrite <- A3 in A4, A5.
  assert (Q : k / B < n - b) by (apply Nat.div_lt_upper_bound; lia).
  assert (DM := Nat.div_mod k B ltac:(lia)).
  assert (M : k = k / B * B).
  { destruct (Nat.eq_dec (k mod B) 0) as [E|E]; [lia|exfalso].
    assert (X := A5 (k / B * B) ltac:(nia)). rewrite !V in X by nia. rewrite Nat.div_mul in X by lia. qlra. }
  exists (b + k / B). rewrite A1. split; [f_equal; replace (b + k / B - b) with (k / B) by lia; exact M|].
  split; [lia|]. split; intros j J.
  - assert (X := A4 ((j - b) * B) ltac:(nia)). rewrite !V in X by nia. rewrite Nat.div_mul in X by lia.
    replace (b + (j - b)) with j in X by lia. qlra.
  - assert (X := A5 ((j - b) * B) ltac:(nia)). rewrite !V in X by nia. rewrite Nat.div_mul in X by lia.
    replace (b + (j - b)) with j in X by lia. qlra.
Qed.

Lemma bc_rev_longer a b : bc_rev (a ++ b) a = Ok (a ++ b).
Proof. induction a as [|x a IH]; cbn [app bc_rev]; [now destruct b|]. rewrite IH. cbn [rbind]. now rewrite Nat.eqb_refl. Qed.
Lemma bc_index_longer n sh i j : i < n -> valid_idx sh j -> bc_index (n :: sh) (i :: j) = i :: j /\ bc_index sh (i :: j) = j.
Proof.
  intros H V. split; [apply bc_index_valid; constructor; assumption|].
  unfold bc_index. cbn [length]. rewrite (valid_len _ _ V). replace (S (length sh) - length sh) with 1 by lia. cbn [skipn].
  assert (X := bc_index_valid sh j V). unfold bc_index in X. rewrite (valid_len _ _ V), Nat.sub_diag in X. exact X.
Qed.
Lemma badd_rows a m n sh : ashape a = n :: sh -> ashape m = sh ->
  exists d, badd a m = Ok d /\ ashape d = n :: sh /\
    forall i j, i < n -> valid_idx sh j -> aget d (i :: j) = (aget a (i :: j) + aget m j)%Qc.
Proof.
  intros Sa Sm. unfold badd, bc_shape. rewrite Sa, Sm. cbn [rev]. rewrite bc_rev_longer. cbn [rmap rbind].
  rewrite rev_app_distr, rev_involutive. cbn [rev app]. eexists. split; [reflexivity|]. split; [reflexivity|].
  intros i j Hi Hj. cbn [aget]. destruct (bc_index_longer n sh i j Hi Hj) as [-> ->]. reflexivity.
Qed.

Section B.
Context {St : Type}.
Variable fit : St -> option Qc -> St * res fitout.
Variable sh : list nat.

Definition holds_bins (n : nat) (stats : ndarray) (rows : pen_rows) (done : list fitout) : Prop :=
  ashape stats = n :: sh /\ length rows = n /\ length done <= n /\
  (forall j, j < length done -> (forall bin, valid_idx sh bin -> aget stats (j :: bin) = bin_stat (nth j done nofit) bin) /\
      qsum (nth j rows []) = penalty_of (nth j done nofit)) /\
  (forall j, length done <= j -> qsum (nth j rows []) = 0%Qc).

Lemma one_scale_bins n st stats rows done x st1 f :
  holds_bins n stats rows done -> length done < n -> per_bin sh f ->
  fit st (if isclose x 0 then None else Some x) = (st1, Ok f) ->
  exists stats' rows', one_scale fit st stats rows (length done) x = (st1, Ok (stats', rows')) /\
    holds_bins n stats' rows' (done ++ [f]).
Proof.
  intros (S & R & L & D & Z) Lt (v & Nf & Sv) F. unfold one_scale. rewrite F. cbn [rbind].
  destruct (aassign_ok stats [n] sh [length done] (as_array (fo_stat f))) as (a' & A1 & A2 & A3).
  { exact S. } { repeat constructor. exact Lt. } { now rewrite Nf. }
  rewrite A1. cbn [rbind].
  assert (A4 : forall j bin, j < n -> valid_idx sh bin -> aget a' (j :: bin) = if j =? length done then bin_stat f bin else aget stats (j :: bin)).
  { intros j bin Hj Hb. specialize (A3 [j] bin). cbn [app] in A3. rewrite A3; [|repeat constructor; exact Hj|exact Hb].
    cbn [idx_eqb]. rewrite Bool.andb_true_r. unfold bin_stat. now rewrite Nf. }
  set (P := fo_pens f).
  assert (exists rows', match P with Some ps => set_pen_row rows (length done) ps | None => Ok rows end = Ok rows' /\
            length rows' = n /\ (forall j, qsum (nth j rows' []) = if j =? length done then penalty_of f else qsum (nth j rows []))) as (rows' & B1 & B2 & B3).
  { unfold penalty_of. fold P. destruct P as [ps|] eqn:EP.
    - destruct ps as [|p ps].
      + exists rows. cbn. repeat split; [exact R|]. intro j. destruct (j =? length done) eqn:E; [|reflexivity].
        apply Nat.eqb_eq in E. subst j. now rewrite Z by lia.
      + unfold set_pen_row. rewrite R. assert (X : length done <? n = true) by (now apply Nat.ltb_lt). rewrite X.
        eexists. split; [reflexivity|]. split; [now rewrite set_nth_length|].
        intro j. rewrite set_nth_get by lia. now destruct (j =? length done).
    - exists rows. repeat split; [exact R|]. intro j. destruct (j =? length done) eqn:E; [|reflexivity].
      apply Nat.eqb_eq in E. subst j. now rewrite Z by lia. }
  rewrite B1. cbn [rbind]. exists a', rows'. split; [reflexivity|].
  unfold holds_bins. rewrite app_length. cbn [length]. split; [exact A2|]. split; [exact B2|]. split; [lia|]. split.
  - intros j Hj. destruct (Nat.eq_dec j (length done)) as [->|].
    + rewrite app_nth2, Nat.sub_diag by lia. cbn [nth]. split.
      * intros bin Hb. rewrite A4 by (lia || exact Hb). now rewrite Nat.eqb_refl.
      * now rewrite B3, Nat.eqb_refl.
    + rewrite app_nth1 by lia. assert (X : j =? length done = false) by (apply Nat.eqb_neq; lia). destruct (D j ltac:(lia)) as [D1 D2]. split.
      * intros bin Hb. rewrite A4 by (lia || exact Hb). rewrite X. now apply D1.
      * now rewrite B3, X.
  - intros j Hj. rewrite B3. assert (X : j =? length done = false) by (apply Nat.eqb_neq; lia). rewrite X. apply Z. lia.
Qed.
Lemma all_scales_bins n : forall l fs st st' stats rows done,
  holds_bins n stats rows done -> length done + length l <= n -> Forall (per_bin sh) fs -> fits_made fit st l st' fs ->
  exists stats' rows', all_scales fit st stats rows (length done) l = (st', Ok (stats', rows')) /\
    holds_bins n stats' rows' (done ++ fs).
Proof.
  induction l as [|x l IH]; intros [|f fs] st st' stats rows done H L N F; cbn [fits_made] in F; try contradiction.
  - subst st'. exists stats, rows. rewrite app_nil_r. split; [reflexivity|exact H].
  - destruct F as (s1 & F1 & F2). inversion N as [|? ? N1 N2]; subst. cbn [length] in L.
    destruct (one_scale_bins n st stats rows done x s1 f H ltac:(lia) N1 F1) as (a & r & E & H').
    cbn [all_scales]. rewrite E.
    destruct (IH fs s1 st' a r (done ++ [f]) H') as (a' & r' & E' & H'').
    { rewrite app_length. cbn. lia. } { exact N2. } { exact F2. }
    rewrite app_length in E'. cbn [length] in E'. rewrite Nat.add_1_r in E'. exists a', r'.
    split; [exact E'|]. now rewrite <- app_assoc in H''.
Qed.
Lemma holds_bins_init n k : holds_bins n (azeros (n :: sh)) (repeat (repeat 0%Qc k) n) [].
Proof.
  split; [reflexivity|]. destruct (holds_init n k) as (_ & A & B & _ & C). split; [exact A|]. split; [exact B|].
  split; [cbn; intros; lia|exact C].
Qed.

Lemma find_limit_bins scales sigmas n stats rows fs m lim :
  holds_bins n stats rows fs -> length fs = n -> 0 < n -> length scales = n -> positive sh -> ashape m = sh ->
  Forall (fun s => s <> None) sigmas ->
  limit_bins sh scales n (aget m) fs lim (find_limit scales sigmas stats rows m lim).
Proof.
  intros (S & R & _ & D & _) LF P LS PS SM SG. rewrite LF in D. unfold limit_bins. set (T := fun j => (total sh (fun bin => bin_stat (nth j fs nofit) bin - aget m bin) + penalty_of (nth j fs nofit))%Qc). cbv zeta. unfold find_limit.
  destruct (badd_rows stats (amap Qcopp m) n sh S) as (d & B1 & B2 & B3). { exact SM. }
  assert (B4 : forall i j, i < n -> valid_idx sh j -> aget d (i :: j) = (bin_stat (nth i fs nofit) j - aget m j)%Qc).
  { intros i j Hi Hj. rewrite B3 by assumption. destruct (D i Hi) as [-> _]; [|exact Hj]. cbn. ring. }
  rewrite B1. cbn [rbind]. rewrite B2, c_order_all.
  assert (AP := asize_pos sh PS). assert (BS : bins sh = asize sh) by apply all_idx_length.
  destruct (argmin_list_spec (map (aget d) (all_idx (n :: sh)))) as (b & A1 & A2 & A3 & A4 & A5).
  { intro Z. apply (f_equal (@length _)) in Z. rewrite map_length, all_idx_length in Z. cbn in Z. fold (asize sh) in Z. nia. }
  rewrite A1. cbn [rbind]. rewrite map_length, all_idx_length in A2, A4.
  destruct (unravel_valid _ _ A2) as [V RV]. set (p := unravel (n :: sh) b) in *.
  assert (DD : forall i, valid_idx (n :: sh) i -> aget d i = (bin_stat (nth (hd 0%nat i) fs nofit) (tl i) - aget m (tl i))%Qc).
  { intros i Hi. inversion Hi as [|i0 n0 j0 sh0 H1 H2 E1 E2]. cbn [hd tl]. apply B4; assumption. }
  exists p, (aget d p), b. split.
  { split; [exact V|]. split; [symmetry; now apply DD|].
    assert (E : min_list (map (aget d) (all_idx (n :: sh))) = aget d p).
    { rewrite <- A3, <- (nth_map_all _ _ _ V), RV. reflexivity. }
    rewrite E in A4, A5. split; intros idx Hi; [|intro L]; rewrite <- DD by exact Hi; rewrite <- (nth_map_all (aget d) _ _ Hi).
    - apply A4, ravel_lt, Hi.
    - apply A5. rewrite <- RV. now apply ravel_mono. }
  split. { rewrite <- RV. now apply all_idx_nth. }
  clear A3 A4 A5.
  unfold get_full_stats. rewrite B2. cbn [hd]. rewrite R, Nat.leb_refl. cbn [rbind].
  set (full := ND (n :: sh) (fun idx => full_row d rows (hd 0 idx))).
  assert (FU : forall i j, i < n -> aget full (i :: j) = T i).
  { intros i j Hi. cbn. unfold full_row. rewrite B2. cbn [tl]. destruct (D i Hi) as [_ ->]. unfold T. f_equal.
    rewrite total_sum_over. apply sum_over_ext. intros k Hk. now apply B4. }
  assert (RA : forall i, i < n -> row_above full lim i = qlt lim (T i)).
  { intros i Hi. unfold row_above. cbn [full ashape tl]. rewrite c_order_all.
    assert (E : length (all_idx sh) <> 0) by (rewrite all_idx_length; lia).
    destruct (qlt lim (T i)) eqn:Q.
    - destruct (all_idx sh) as [|k l]; [cbn in E; lia|]. cbn [existsb]. rewrite FU by exact Hi. now rewrite Q.
    - induction (all_idx sh) as [|k l IH]; [reflexivity|]. cbn [existsb]. rewrite FU by exact Hi. rewrite Q. cbn [orb].
      destruct l; [reflexivity|]. apply IH. discriminate. }
  assert (LG : forall i, i < n -> log_params sigmas rows i = Ok tt).
  { intros i Hi. unfold log_params. destruct sigmas as [|s0 sg]; [reflexivity|]. rewrite R.
    assert (X : n <=? i = false) by (apply Nat.leb_gt; lia). rewrite X.
    assert (Y : forallb (fun s => match s with Some _ => true | None => false end) (s0 :: sg) = true).
    { apply forallb_forall. intros s Hs. rewrite Forall_forall in SG. specialize (SG s Hs). destruct s; congruence. }
    now rewrite Y. }
  assert (FM : forall l, Forall (fun i => i < n) l -> flat_map (fun i => map (fun j => aget full (i :: j)) (c_order sh)) l = flat_map (fun i => repeat (T i) (bins sh)) l).
  { intros l FL. induction FL as [|i l Hi _ IH]; [reflexivity|]. cbn [flat_map]. rewrite IH. f_equal. rewrite c_order_all. unfold bins.
    induction (all_idx sh) as [|k l' IH']; [reflexivity|]. cbn [map length repeat]. rewrite IH', FU by exact Hi. reflexivity. }
  assert (FS : Forall (fun i => i < n) (seq b (n - b))) by (apply Forall_forall; intros i Hi; apply in_seq in Hi; lia).
  assert (NL : exists e, no_limit scales sigmas full rows b = Err e /\ (n <= b -> e = EValueError) /\
        (b < n -> exists r, first_greatest T b n r /\
           (b + (r - b) * bins sh < n -> e = ELimitError) /\ (n <= b + (r - b) * bins sh -> e = EIndexError))).
  { unfold no_limit, rows_from. cbn [full ashape hd tl]. change (fun idx => full_row d rows (hd 0 idx)) with (aget full).
    rewrite FM by exact FS. destruct (le_lt_dec n b) as [L|L].
    - replace (n - b) with 0 by lia. cbn [seq flat_map map argmin_list rbind]. eexists. split; [reflexivity|].
      split; [reflexivity|lia].
    - destruct (argmax_blocks T (bins sh) b n) as (r & K1 & K2); [lia|exact L|].
      rewrite K1. cbn [rbind]. rewrite LS. destruct (Nat.ltb_spec (b + (r - b) * bins sh) n) as [X|X]; cbn [rbind].
      + rewrite LG by lia. cbn [rbind]. assert (Y : (r - b) * bins sh <? n = true) by (apply Nat.ltb_lt; lia). rewrite Y. cbn [rbind].
        eexists. split; [reflexivity|]. split; [lia|]. intros _. exists r. split; [exact K2|]. split; [reflexivity|lia].
      + eexists. split; [reflexivity|]. split; [lia|]. intros _. exists r. split; [exact K2|]. split; [lia|reflexivity]. }
  destruct NL as (e & NL & N1 & N2).
  unfold rows_from. cbn [full ashape hd]. fold full.
  assert (FR := first_row_spec (row_above full lim) b (n - b) b eq_refl).
  destruct (first_row (row_above full lim) (seq b (n - b))) as [r|].
  - destruct FR as (F1 & F2 & F3). rewrite LS. assert (X : r <? n = true) by (apply Nat.ltb_lt; lia). rewrite X.
    rewrite LG by lia. exists r. split; [|reflexivity]. split; [lia|]. rewrite RA in F2 by lia. split; [now apply qlt_true|].
    intros j Hj. assert (G := F3 j Hj). rewrite RA in G by lia. now apply qlt_false.
  - rewrite NL. split; [|split; assumption]. intros j Hj. assert (G := FR j ltac:(lia)). rewrite RA in G by lia. now apply qlt_false.
Qed.

Lemma get_limit_bins scales sigmas st lim st1 f0 m st2 fs :
  scales <> [] -> positive sh -> Forall (fun s => s <> None) sigmas ->
  fit st None = (st1, Ok f0) -> fo_stat f0 = RArr m -> ashape m = sh ->
  fits_made fit st1 scales st2 fs -> Forall (per_bin sh) fs ->
  fst (get_limit fit scales (length scales) [length scales] sigmas st lim None) = st2 /\
  limit_bins sh scales (length scales) (aget m) fs lim (snd (get_limit fit scales (length scales) [length scales] sigmas st lim None)).
Proof.
  intros NE PS SG Z M SM F N. set (n := length scales).
  assert (LF : length fs = n).
  { unfold n. clear - F. revert fs st1 F. induction scales as [|x l IH]; intros [|f fs] st1 F; cbn in *; try contradiction; [reflexivity|].
    destruct F as (s & _ & F). now rewrite (IH _ _ F). }
  assert (P : 0 < n) by (unfold n; destruct scales; [congruence|cbn; lia]).
  destruct (all_scales_bins n scales fs st1 st2 _ _ [] (holds_bins_init n (length sigmas))) as (a & r & E & H).
  { cbn. fold n. lia. } { exact N. } { exact F. }
  cbn [length app] in E, H.
  assert (X := find_limit_bins scales sigmas n a r fs m lim H LF P eq_refl PS SM SG).
  unfold get_limit. rewrite Z. cbn [rmap]. rewrite M. cbn [stats_shape]. rewrite SM. cbn [app]. rewrite E. cbn [fst snd as_array].
  split; [reflexivity|exact X].
Qed.

Lemma drop_all k : forall l, length l = k -> (exists d, In d l /\ d <> 1) -> drop_ones k l = None.
Proof.
  induction k as [|k IH]; intros [|x l] L (d & I & N); try discriminate; [destruct I|]. cbn [drop_ones].
  destruct (Nat.eqb_spec x 1) as [->|E]; [|reflexivity]. apply IH; [now injection L|]. exists d. split; [|exact N].
  destruct I as [I|I]; [congruence|exact I].
Qed.
Lemma get_limit_bins_given x l sigmas st lim m st1 f :
  m <> 0%Qc -> per_bin sh f -> (exists d, In d sh /\ d <> 1) ->
  fit st (if isclose x 0 then None else Some x) = (st1, Ok f) ->
  get_limit fit (x :: l) (length (x :: l)) [length (x :: l)] sigmas st lim (Some m) = (st1, Err EValueError).
Proof.
  intros M (a & A & Sa) D F. unfold get_limit. destruct (qeq m 0) eqn:Q; [apply qeq_iff in Q; contradiction|]. cbn [negb stats_shape all_scales].
  unfold one_scale. rewrite F. cbn [rbind]. rewrite A. cbn [as_array].
  assert (E : aassign (azeros [length (x :: l)]) [0] a = Err EValueError).
  { unfold aassign. cbn [azeros ashape prefix_ok length skipn]. cbn [Nat.ltb Nat.leb andb]. rewrite Sa, Nat.sub_0_r.
    rewrite (drop_all (length sh) sh eq_refl D). reflexivity. }
  rewrite E. reflexivity.
Qed.
End B.

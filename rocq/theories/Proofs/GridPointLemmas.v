(** Reading and writing the arrays of a grid search. *)
From Coq Require Import Lia.
From Verif Require Import Model.Base Model.PyStr Model.NDArray Model.Param Model.Spectra Model.FitParam Model.Minimise.
From Verif Require Import Spec.ArraySpec Spec.SearchSpec Spec.GridPointSpec.
From Verif Require Import Proofs.QcLemmas Proofs.NDArrayLemmas Proofs.MinimiseLemmas Proofs.SearchLemmas.

Lemma prefix_inside : forall idx sh, prefix_ok idx sh = true <-> inside sh idx.
Proof.
  induction idx as [|i idx IH]; intros sh; cbn [prefix_ok].
  - split; [intros _; exists [], sh; split; [reflexivity|constructor]|destruct sh; reflexivity].
  - destruct sh as [|n sh]; [split; [discriminate|intros (a & b & E & V); inversion V; subst; discriminate]|].
    rewrite andb_true_iff, Nat.ltb_lt, IH. split.
    + intros (L & a & b & -> & V). exists (n :: a), b. split; [reflexivity|now constructor].
    + intros (a & b & E & V). inversion V as [|? m ? a' L V']; subst. injection E as -> ->. split; [exact L|now exists a', b].
Qed.
Lemma inside_dec sh idx : inside sh idx \/ ~ inside sh idx.
Proof. destruct (prefix_ok idx sh) eqn:E; [left; now apply prefix_inside|right; intro H; apply prefix_inside in H; congruence]. Qed.
Lemma tuple_gt_prefix : forall idx fs ex, prefix_ok idx (fs ++ ex) = true -> (fs = [] -> idx = []) -> tuple_gt idx fs = false.
Proof.
  intros [|i idx] [|n fs] ex H N; try reflexivity; [discriminate (N eq_refl)|]. cbn in *. apply andb_true_iff in H as (H & _). apply Nat.ltb_lt in H.
  destruct (Nat.eqb_spec i n); [lia|]. apply Nat.ltb_ge. lia.
Qed.
Lemma bounds_ok g idx ex : prefix_ok idx (fit_shape (gs_pars g) ++ ex) = true -> (gs_pars g = [] -> idx = []) -> check_bounds g idx = Ok tt.
Proof.
  intros H N. unfold check_bounds. rewrite (tuple_gt_prefix idx _ ex H); [reflexivity|]. intro E. apply N. unfold fit_shape in E. now destruct (gs_pars g).
Qed.
Lemma bounds_cases g idx : check_bounds g idx = Ok tt \/ check_bounds g idx = Err EIndexError.
Proof. unfold check_bounds. destruct (tuple_gt _ _); auto. Qed.
Lemma bounds_none g i idx : gs_pars g = [] -> check_bounds g (i :: idx) = Err EIndexError.
Proof. intro E. unfold check_bounds. rewrite E. reflexivity. Qed.
Lemma idx_eqb_true : forall a b, idx_eqb a b = true <-> a = b.
Proof.
  induction a as [|x a IH]; intros [|y b]; cbn; split; intro H; try reflexivity; try discriminate.
  - apply andb_true_iff in H as (H1 & H2). apply Nat.eqb_eq in H1. apply IH in H2. congruence.
  - injection H as -> ->. rewrite Nat.eqb_refl. now apply IH.
Qed.

(** ** Broadcasting *)
Lemma drop_ones_ok : forall k sh, k <= length sh -> drop_ones k sh = (if forallb (Nat.eqb 1) (firstn k sh) then Some (skipn k sh) else None).
Proof.
  induction k as [|k IH]; intros [|n sh] L; cbn in *; try lia; try reflexivity. rewrite IH by lia. rewrite (Nat.eqb_sym n 1). destruct n as [|[|n]]; reflexivity.
Qed.
Lemma bc_to_assignable : forall v sub, length v <= length sub -> bc_to_rev v sub = true <-> assignable v sub.
Proof.
  induction v as [|n v IH]; intros [|m sub] L; cbn in *; try lia; try (split; [constructor|reflexivity]).
  rewrite andb_true_iff, orb_true_iff, !Nat.eqb_eq, IH by lia. split; [intros (A & B); now constructor|].
  intro A. inversion A as [|? F|? ? ? ? B C]; subst; auto.
Qed.
(** Axes in excess. *)
Lemma assignable_app : forall v e sub, length v = length sub -> assignable (v ++ e) sub <-> assignable v sub /\ Forall (eq 1) e.
Proof.
  induction v as [|n v IH]; intros e [|m sub] L; cbn in *; try lia.
  - split; [intro A; split; [constructor|]|intros (_ & F); now constructor]. inversion A; subst; auto.
  - split.
    + intro A. inversion A as [|? F|? ? ? ? B C]; subst. apply IH in C as (C & F); [|lia]. split; [now constructor|exact F].
    + intros (A & F). inversion A as [|? F'|? ? ? ? B C]; subst. constructor; [exact B|]. apply IH; [lia|auto].
Qed.
Lemma forallb_ones l : forallb (Nat.eqb 1) l = true <-> Forall (eq 1) l.
Proof. rewrite forallb_forall, Forall_forall. split; intros H x I; [apply Nat.eqb_eq|apply Nat.eqb_eq]; auto. Qed.
Lemma rev_eq {A} (l l' : list A) : rev l = rev l' -> l = l'.
Proof. intro H. rewrite <- (rev_involutive l), H. apply rev_involutive. Qed.
Lemma zip_snoc {A B C} (f : A -> B -> C) : forall l l' a b, length l = length l' -> zip_with f (l ++ [a]) (l' ++ [b]) = zip_with f l l' ++ [f a b].
Proof. induction l as [|x l IH]; intros [|y l'] a b L; cbn in *; try lia; [reflexivity|]. f_equal. apply IH. lia. Qed.
Lemma zip_rev {A B C} (f : A -> B -> C) : forall l l', length l = length l' -> rev (zip_with f l l') = zip_with f (rev l) (rev l').
Proof.
  induction l as [|x l IH]; intros [|y l'] L; cbn in *; try lia; [reflexivity|]. rewrite IH by lia. symmetry. apply zip_snoc. rewrite !rev_length. lia.
Qed.
Lemma supplies_zip : forall v j, length v <= length j -> supplies v j (zip_with (fun n i => if n =? 1 then 0 else i) v (firstn (length v) j)).
Proof.
  induction v as [|n v IH]; intros [|x j] L; cbn in *; try lia; try constructor.
  destruct (Nat.eqb_spec n 1) as [-> |N]; constructor; try exact N; apply IH; lia.
Qed.
Lemma supplies_app : forall v e j i, length v = length j -> supplies v j i -> Forall (eq 1) e -> supplies (v ++ e) j (i ++ map (fun _ => 0) e).
Proof.
  induction v as [|n v IH]; intros e [|x j] i L S F; cbn in *; try lia.
  - inversion S; subst; cbn; now constructor.
  - inversion S as [| |? ? ? i' S'|? ? ? ? i' N S']; subst; cbn; constructor; try assumption; apply IH; auto.
Qed.
Lemma supplies_one : forall v j i, supplies v j i -> forall i', supplies v j i' -> i = i'.
Proof.
  induction 1 as [j|v F|v x j i S IH|n v x j i N S IH]; intros i' H; inversion H; subst; try reflexivity; try contradiction; f_equal; auto.
Qed.
Lemma bc_index_supplies v j : length v <= length j -> supplies (rev v) (rev j) (rev (bc_index v j)).
Proof.
  intro L. unfold bc_index. rewrite zip_rev by (rewrite skipn_length; lia).
  assert (E : rev (skipn (length j - length v) j) = firstn (length (rev v)) (rev j)).
  { rewrite rev_length. rewrite <- (rev_involutive j) at 1 2. rewrite rev_length. set (r := rev j). assert (Lr : length v <= length r) by (unfold r; rewrite rev_length; exact L).
    rewrite <- (firstn_skipn (length v) r) at 2. rewrite rev_app_distr. rewrite skipn_len; [apply rev_involutive|]. rewrite rev_length, skipn_length. reflexivity. }
  rewrite E. apply supplies_zip. now rewrite !rev_length.
Qed.

Lemma zeros_snoc k : repeat 0 k ++ [0] = 0 :: repeat 0 k.
Proof. induction k as [|k IH]; cbn; [reflexivity|]. now rewrite IH. Qed.
Lemma zeros_rev (l : list nat) : map (fun _ => 0) l = rev (repeat 0 (length l)).
Proof. induction l as [|x l IH]; cbn; [reflexivity|]. rewrite IH. assert (R : forall k, rev (repeat 0 k) = repeat 0 k) by (induction k as [|k IHk]; cbn; [reflexivity|]; rewrite IHk; apply zeros_snoc). rewrite R. symmetry. apply zeros_snoc. Qed.

(** ** Assignment *)
Lemma aassign_all a idx v : inside (ashape a) idx ->
  let sub := skipn (length idx) (ashape a) in
  (assignable (rev (ashape v)) (rev sub) -> exists a', aassign a idx v = Ok a' /\ ashape a' = ashape a /\
     (forall t i, length t = length sub -> supplies (rev (ashape v)) (rev t) (rev i) -> aget a' (idx ++ t) = aget v i) /\
     (forall j, (forall t, j <> idx ++ t) -> aget a' j = aget a j)) /\
  (~ assignable (rev (ashape v)) (rev sub) -> aassign a idx v = Err EValueError).
Proof.
  intros H sub. unfold aassign. rewrite (proj2 (prefix_inside idx (ashape a)) H). fold sub. set (k := length (ashape v) - length sub).
  rewrite drop_ones_ok by (unfold k; lia). pose proof (firstn_skipn k (ashape v)) as Sp. set (e := firstn k (ashape v)) in *. set (w := skipn k (ashape v)) in *.
  assert (Lw : length w = length (ashape v) - k) by apply skipn_length.
  assert (As : assignable (rev (ashape v)) (rev sub) <-> forallb (Nat.eqb 1) e = true /\ bc_to_rev (rev w) (rev sub) = true).
  { rewrite bc_to_assignable by (rewrite !rev_length; unfold k in Lw; lia). rewrite forallb_ones. rewrite <- Sp, rev_app_distr.
    destruct (Nat.eq_dec k 0) as [K|K].
    - unfold e. rewrite K. cbn [firstn rev]. rewrite app_nil_r. split; [intro A; split; [constructor|exact A]|now intros (_ & A)].
    - rewrite assignable_app by (rewrite !rev_length; unfold k in Lw, K; lia). rewrite !Forall_forall.
      split; intros (A & B); split; auto; intros x I; [apply in_rev in I|rewrite in_rev in I; rewrite rev_involutive in I]; auto.  }
  split.
  - intro A. apply As in A as (A1 & A2). rewrite A1, A2. eexists. split; [reflexivity|]. split; [reflexivity|]. cbn [aget]. split.
    + intros t i Lt S. rewrite (firstn_len idx t _ eq_refl), (skipn_len idx t _ eq_refl). rewrite (proj2 (idx_eqb_true idx idx) eq_refl). f_equal.
      apply forallb_ones in A1. apply rev_eq. apply (supplies_one (rev (ashape v)) (rev t)); [|exact S].
      rewrite <- Sp. rewrite !rev_app_distr. unfold zeros_like.
      destruct (Nat.eq_dec k 0) as [K|K].
      * unfold e. rewrite K. cbn [firstn rev repeat]. rewrite !app_nil_r. apply bc_index_supplies. unfold k in K, Lw. lia.
      * replace (rev (repeat 0 k)) with (map (fun _ : nat => 0) (rev e)).
        { apply supplies_app; [rewrite !rev_length; unfold k in Lw, K; lia|apply bc_index_supplies; unfold k in Lw, K; lia|].
          rewrite Forall_forall in *. intros x I. apply in_rev in I. auto. }
        assert (Le : length (rev e) = k) by (rewrite rev_length; unfold e; rewrite firstn_length; unfold k; lia). rewrite <- Le. apply zeros_rev.
    + intros j N. destruct (idx_eqb (firstn (length idx) j) idx) eqn:E; [|reflexivity]. exfalso. apply idx_eqb_true in E. apply (N (skipn (length idx) j)).
      rewrite <- E at 1. symmetry. apply firstn_skipn.
  - intro N. destruct (forallb (Nat.eqb 1) e) eqn:E1; [|reflexivity]. destruct (bc_to_rev (rev w) (rev sub)) eqn:E2; [|reflexivity]. exfalso. apply N, As. auto.
Qed.
Lemma aassign_outside a idx v : ~ inside (ashape a) idx -> aassign a idx v = Err EIndexError.
Proof. intro N. unfold aassign. destruct (prefix_ok idx (ashape a)) eqn:E; [|reflexivity]. exfalso. apply N. now apply prefix_inside. Qed.

Lemma set_stat_ok_l g v idx : grid_shaped g -> allowed g (ashape (gs_stats g)) idx -> assignable (rev (ashape v)) (rev (skipn (length idx) (ashape (gs_stats g)))) ->
  exists g', set_stat g v idx = Ok g' /\ grid_shaped g' /\ same_but_stats g g' /\
    (forall t i, valid_idx (ashape (gs_stats g)) (idx ++ t) -> supplies (rev (ashape v)) (rev t) (rev i) -> aget (gs_stats g') (idx ++ t) = aget v i) /\
    (forall j, (forall t, j <> idx ++ t) -> aget (gs_stats g') j = aget (gs_stats g) j).
Proof.
  intros (S1 & S2) (I & N) A. unfold set_stat. pose proof I as P. apply prefix_inside in P. rewrite S1 in P. rewrite (bounds_ok g idx _ P N). cbn [rbind].
  destruct (proj1 (aassign_all (gs_stats g) idx v I) A) as (a' & -> & Sa & W & R). cbn [rbind]. eexists. split; [reflexivity|]. cbn [gs_with gs_stats gs_pen gs_pars].
  split; [split; cbn [gs_with gs_stats gs_pen gs_pars gs_per_bin gs_spec]; [rewrite Sa; exact S1|exact S2]|]. split; [repeat split; reflexivity|]. split; [|exact R].
  intros t i V Su. apply W; [|exact Su]. pose proof (valid_len _ _ V) as L. rewrite app_length in L. rewrite skipn_length. lia.
Qed.
Lemma set_stat_value_l g v idx : grid_shaped g -> allowed g (ashape (gs_stats g)) idx -> ~ assignable (rev (ashape v)) (rev (skipn (length idx) (ashape (gs_stats g)))) ->
  set_stat g v idx = Err EValueError.
Proof.
  intros (S1 & S2) (I & N) A. unfold set_stat. pose proof I as P. apply prefix_inside in P. rewrite S1 in P. rewrite (bounds_ok g idx _ P N). cbn [rbind].
  now rewrite (proj2 (aassign_all (gs_stats g) idx v I) A).
Qed.
Lemma set_stat_index_l g v idx : ~ allowed g (ashape (gs_stats g)) idx -> set_stat g v idx = Err EIndexError.
Proof.
  intro N. unfold set_stat. destruct (bounds_cases g idx) as [B|B]; rewrite B; [|reflexivity]. cbn [rbind]. destruct (inside_dec (ashape (gs_stats g)) idx) as [I|I].
  - exfalso. apply N. split; [exact I|]. intro E. destruct idx as [|i idx]; [reflexivity|]. rewrite (bounds_none g i idx E) in B. discriminate.
  - now rewrite aassign_outside.
Qed.
Lemma pen_allowed g idx : grid_shaped g -> inside (ashape (gs_pen g)) idx -> allowed g (ashape (gs_pen g)) idx.
Proof.
  intros (S1 & S2) I. split; [exact I|]. intro E. rewrite S2, E in I. destruct I as (a & b & X & V). destruct a; [|discriminate]. now inversion V.
Qed.
Lemma set_penalty_l g x idx : grid_shaped g ->
  (inside (ashape (gs_pen g)) idx -> exists g', set_penalty g x idx = Ok g' /\ grid_shaped g' /\ same_but_penalties g g' /\
     (forall t, valid_idx (ashape (gs_pen g)) (idx ++ t) -> aget (gs_pen g') (idx ++ t) = x) /\
     (forall j, (forall t, j <> idx ++ t) -> aget (gs_pen g') j = aget (gs_pen g) j)) /\
  (~ inside (ashape (gs_pen g)) idx -> set_penalty g x idx = Err EIndexError).
Proof.
  intros G. split; intro I.
  - destruct (pen_allowed g idx G I) as (_ & N). destruct G as (S1 & S2). unfold set_penalty. pose proof I as P. apply prefix_inside in P. rewrite S2 in P.
    rewrite <- (app_nil_r (fit_shape (gs_pars g))) in P. rewrite (bounds_ok g idx _ P N). cbn [rbind].
    destruct (proj1 (aassign_all (gs_pen g) idx (ND [] (fun _ => x)) I) (as_all _)) as (a' & -> & Sa & W & R). cbn [rbind]. eexists. split; [reflexivity|]. cbn [gs_with gs_stats gs_pen gs_pars].
    split; [split; cbn [gs_with gs_stats gs_pen gs_pars gs_per_bin gs_spec]; [exact S1|congruence]|]. split; [repeat split; reflexivity|]. split; [|exact R].
    intros t V. rewrite (W t []); [reflexivity| |constructor]. pose proof (valid_len _ _ V) as L. rewrite app_length in L. rewrite skipn_length. lia.
  - unfold set_penalty. destruct (bounds_cases g idx) as [B|B]; rewrite B; [|reflexivity]. cbn [rbind]. now rewrite aassign_outside.
Qed.
Lemma set_stats_l g a : grid_shaped g ->
  (ashape a = ashape (gs_stats g) -> exists g', set_stats g a = Ok g' /\ grid_shaped g' /\ same_but_stats g g' /\ gs_stats g' = a) /\
  (ashape a <> ashape (gs_stats g) -> set_stats g a = Err EValueError).
Proof.
  intros (S1 & S2). unfold set_stats, shape_eqb. split; intro E.
  - rewrite (proj2 (idx_eqb_true _ _) E). eexists. split; [reflexivity|]. split; [split; cbn [gs_with gs_stats gs_pen gs_pars gs_per_bin gs_spec]; congruence|]. split; [repeat split; reflexivity|reflexivity].
  - destruct (idx_eqb (ashape a) (ashape (gs_stats g))) eqn:X; [|reflexivity]. apply idx_eqb_true in X. contradiction.
Qed.
Lemma set_penalties_l g a : grid_shaped g ->
  (ashape a = ashape (gs_pen g) -> exists g', set_penalty_terms g a = Ok g' /\ grid_shaped g' /\ same_but_penalties g g' /\ gs_pen g' = a) /\
  (ashape a <> ashape (gs_pen g) -> set_penalty_terms g a = Err EValueError).
Proof.
  intros (S1 & S2). unfold set_penalty_terms, shape_eqb. rewrite <- S2. split; intro E.
  - rewrite (proj2 (idx_eqb_true _ _) E). eexists. split; [reflexivity|]. split; [split; cbn [gs_with gs_stats gs_pen gs_pars gs_per_bin gs_spec]; congruence|]. split; [repeat split; reflexivity|reflexivity].
  - destruct (idx_eqb (ashape a) (ashape (gs_pen g))) eqn:X; [|reflexivity]. apply idx_eqb_true in X. contradiction.
Qed.

(** ** Reading *)
Lemma aindex_all a idx : (inside (ashape a) idx -> exists b, aindex a idx = Ok b /\ ashape b = skipn (length idx) (ashape a) /\ forall t, aget b t = aget a (idx ++ t)) /\
  (~ inside (ashape a) idx -> aindex a idx = Err EIndexError).
Proof.
  unfold aindex. split; intro I.
  - rewrite (proj2 (prefix_inside _ _) I). eexists. split; [reflexivity|]. now split.
  - destruct (prefix_ok idx (ashape a)) eqn:E; [|reflexivity]. exfalso. now apply I, prefix_inside.
Qed.
Lemma penalty_l g idx : grid_shaped g ->
  (inside (ashape (gs_pen g)) idx -> exists b, get_penalty_term_at g idx = Ok b /\ ashape b = skipn (length idx) (ashape (gs_pen g)) /\ forall t, aget b t = aget (gs_pen g) (idx ++ t)) /\
  (~ inside (ashape (gs_pen g)) idx -> get_penalty_term_at g idx = Err EIndexError).
Proof.
  intros G. unfold get_penalty_term_at. split; intro I.
  - destruct (pen_allowed g idx G I) as (_ & N). destruct G as (S1 & S2). pose proof I as P. apply prefix_inside in P. rewrite S2 in P.
    rewrite <- (app_nil_r (fit_shape (gs_pars g))) in P. rewrite (bounds_ok g idx _ P N). cbn [rbind]. exact (proj1 (aindex_all _ _) I).
  - destruct (bounds_cases g idx) as [B|B]; rewrite B; [|reflexivity]. cbn [rbind]. exact (proj2 (aindex_all _ _) I).
Qed.
Lemma skipn_app_le {A} n (l r : list A) : n <= length l -> skipn n (l ++ r) = skipn n l ++ r.
Proof. intro L. rewrite skipn_app. replace (n - length l) with 0 by lia. reflexivity. Qed.
Lemma inside_app sh r idx : inside sh idx -> inside (sh ++ r) idx.
Proof. intros (a & b & -> & V). exists a, (b ++ r). split; [now rewrite app_assoc|exact V]. Qed.
Lemma inside_len sh idx : inside sh idx -> length idx <= length sh.
Proof. intros (a & b & -> & V). rewrite app_length, (valid_len _ _ V). lia. Qed.
Lemma get_stat_l g idx : grid_shaped g ->
  (inside (fit_shape (gs_pars g)) idx -> exists b, get_stat g idx = Ok b /\ ashape b = skipn (length idx) (fit_shape (gs_pars g)) /\
     forall t, valid_idx (ashape b) t -> aget b t = (total (answer_shape (gs_per_bin g) (gs_spec g)) (fun j => aget (gs_stats g) (idx ++ t ++ j)) + aget (gs_pen g) (idx ++ t))%Qc) /\
  (~ inside (fit_shape (gs_pars g)) idx -> exists e, get_stat g idx = Err e).
Proof.
  intros G. pose proof G as (S1 & S2). split; intro I.
  - pose proof I as I2. rewrite <- S2 in I2. destruct (pen_allowed g idx G I2) as (_ & N). pose proof (inside_app _ (answer_shape (gs_per_bin g) (gs_spec g)) _ I) as I1. pose proof I1 as P. apply prefix_inside in P.
    unfold get_stat. rewrite (bounds_ok g idx _ P N). cbn [rbind]. rewrite <- S1 in I1. destruct (proj1 (aindex_all _ _) I1) as (c & -> & Sc & Gc). cbn [rbind].
    rewrite S1, skipn_app_le in Sc by (now apply inside_len).
    assert (X : exists c', (if gs_per_bin g then sum_last (length (gs_spec g)) c else Ok c) = Ok c' /\ ashape c' = skipn (length idx) (fit_shape (gs_pars g)) /\
      forall t, valid_idx (ashape c') t -> aget c' t = total (answer_shape (gs_per_bin g) (gs_spec g)) (fun j => aget (gs_stats g) (idx ++ t ++ j))).
    { destruct (gs_per_bin g); cbn [answer_shape] in *.
      - destruct (sum_last_ok (gs_spec g) c _ Sc) as (c' & E & Sc' & Gc'). exists c'. split; [exact E|]. split; [exact Sc'|]. intros t V. rewrite Sc' in V. rewrite (Gc' t V), total_sum_over. apply sum_over_ext. intros j _. apply Gc.
      - exists c. split; [reflexivity|]. rewrite app_nil_r in Sc. split; [exact Sc|]. intros t V. rewrite total_sum_over. cbn [sum_over]. now rewrite app_nil_r, Gc. }
    destruct X as (c' & -> & Sc' & Gc'). cbn [rbind]. destruct (proj1 (aindex_all _ _) I2) as (q & -> & Sq & Gq). cbn [rbind]. rewrite S2 in Sq.
    destruct (badd_ok c' q _ Sc' Sq) as (b & Eb & Sb & Gb). exists b. split; [exact Eb|]. split; [exact Sb|]. intros t V. rewrite Sb in V. rewrite (Gb t V), Gq, Gc'; [reflexivity|congruence].
  - unfold get_stat. destruct (bounds_cases g idx) as [B|B]; rewrite B; [|eexists; reflexivity]. cbn [rbind]. destruct (aindex (gs_stats g) idx) as [c|e]; [|eexists; reflexivity]. cbn [rbind].
    destruct (if gs_per_bin g then sum_last (length (gs_spec g)) c else Ok c) as [c'|e]; [|eexists; reflexivity]. cbn [rbind]. rewrite (proj2 (aindex_all (gs_pen g) idx)); [eexists; reflexivity|now rewrite S2].
Qed.
Lemma raw_l g idx :
  (inside (ashape (gs_stats g)) idx -> exists b, get_raw_stat g idx = Ok b /\ ashape b = skipn (length idx) (ashape (gs_stats g)) /\ forall t, aget b t = aget (gs_stats g) (idx ++ t)) /\
  (~ inside (ashape (gs_stats g)) idx -> get_raw_stat g idx = Err EIndexError).
Proof. exact (aindex_all (gs_stats g) idx). Qed.

(** ** Histories *)
Lemma prefix_dec (idx p : list nat) : (exists t, p = idx ++ t) \/ (forall t, p <> idx ++ t).
Proof.
  revert p. induction idx as [|i idx IH]; intros p; [left; now exists p|]. destruct p as [|x p]; [right; discriminate|].
  destruct (Nat.eq_dec i x) as [-> |N]; [|right; intros t E; injection E as E _; congruence]. destruct (IH p) as [(t & ->)|H]; [left; now exists t|].
  right. intros t E. injection E as E. now apply (H t).
Qed.
Lemma assignable_dec : forall v sub, assignable v sub \/ ~ assignable v sub.
Proof.
  induction v as [|n v IH]; intros sub; [left; constructor|]. destruct sub as [|m sub].
  - destruct (forallb (Nat.eqb 1) (n :: v)) eqn:E; [left; constructor; now apply forallb_ones|]. right. intro A. inversion A as [|? F|]; subst. apply forallb_ones in F. congruence.
  - destruct (IH sub) as [A|A]; [|right; intro B; inversion B; subst; auto].
    destruct (Nat.eq_dec n m) as [E|E]; [left; constructor; auto|]. destruct (Nat.eq_dec n 1) as [E'|E']; [left; constructor; auto|]. right. intro B. inversion B as [| |? ? ? ? [C|C] D]; subst; auto.
Qed.
Lemma supplies_exists : forall v sub, assignable v sub -> forall j, length j = length sub -> exists i, supplies v j i.
Proof.
  induction 1 as [sub|v F|n m v sub C A IH]; intros j L.
  - exists []. constructor.
  - destruct j; [|discriminate]. eexists. now constructor.
  - destruct j as [|x j]; [discriminate|]. destruct (IH j) as (i & S); [cbn in L; lia|]. destruct (Nat.eq_dec n 1) as [-> |N]; eexists; constructor; eauto.
Qed.
Lemma pars_dec g : gs_pars g = [] \/ gs_pars g <> [].
Proof. destruct (gs_pars g); [now left|right; discriminate]. Qed.
Lemma shape_dec (a b : list nat) : a = b \/ a <> b.
Proof. destruct (list_eq_dec Nat.eq_dec a b); auto. Qed.

Lemma frame_stats g g' : grid_shaped g' -> same_but_stats g g' -> unchanged_but_arrays g g'.
Proof. intros G (A & B & C & D & E & F & _). repeat split; try assumption; apply G. Qed.
Lemma frame_pens g g' : grid_shaped g' -> same_but_penalties g g' -> unchanged_but_arrays g g'.
Proof. intros G (A & B & C & D & E & F & _). repeat split; try assumption; apply G. Qed.
Lemma frame_shapes g g' : grid_shaped g -> unchanged_but_arrays g g' -> ashape (gs_stats g') = ashape (gs_stats g) /\ ashape (gs_pen g') = ashape (gs_pen g).
Proof. intros (A & B) ((A' & B') & P & Q & R & _). split; congruence. Qed.
Lemma written_step g w : grid_shaped g ->
  unchanged_but_arrays g (written g w) /\
  (forall p x, valid_idx (ashape (gs_pen g)) p -> forall ws, last_penalty (ashape (gs_pen g)) p ws (aget (gs_pen g) p) -> x = aget (gs_pen (written g w)) p -> last_penalty (ashape (gs_pen g)) p (ws ++ [w]) x) /\
  (forall p x, valid_idx (ashape (gs_stats g)) p -> forall ws, last_stat (ashape (gs_stats g)) p (gs_pars g <> []) ws (aget (gs_stats g) p) -> x = aget (gs_stats (written g w)) p ->
     last_stat (ashape (gs_stats g)) p (gs_pars g <> []) (ws ++ [w]) x).
Proof.
  intros G. assert (Fr : unchanged_but_arrays g g) by (repeat split; apply G). destruct w as [v idx|y idx|a|a]; unfold written.
  - assert (Cs : set_stat g v idx = Err EValueError \/ set_stat g v idx = Err EIndexError \/ (allowed g (ashape (gs_stats g)) idx /\ assignable (rev (ashape v)) (rev (skipn (length idx) (ashape (gs_stats g)))))).
    { destruct (inside_dec (ashape (gs_stats g)) idx) as [I|I]; [|right; left; apply set_stat_index_l; now intros (X & _)].
      destruct (pars_dec g) as [P|P].
      - destruct idx as [|i idx]; [|right; left; apply set_stat_index_l; intros (_ & X); discriminate (X P)].
        destruct (assignable_dec (rev (ashape v)) (rev (skipn (length (@nil nat)) (ashape (gs_stats g))))) as [A|A]; [right; right; split; [split; auto|exact A]|left; apply set_stat_value_l; [exact G|split; auto|exact A]].
      - destruct (assignable_dec (rev (ashape v)) (rev (skipn (length idx) (ashape (gs_stats g))))) as [A|A]; [right; right; split; [split; [exact I|tauto]|exact A]|left; apply set_stat_value_l; [exact G|split; [exact I|tauto]|exact A]]. }
    assert (Nt : (exists e, set_stat g v idx = Err e) -> forall p, ~ stat_touched (ashape (gs_stats g)) (gs_pars g <> []) (WStat v idx) p).
    { intros (e & E) p (I & N & A & _). destruct (set_stat_ok_l g v idx G) as (g' & E' & _); [split; [exact I|intro P; apply N; congruence]|exact A|congruence]. }
    destruct Cs as [E|[E|(Al & A)]].
    + rewrite E. split; [exact Fr|]. split; intros p x V ws L ->; [apply lp_other; [intros []|exact L]|apply ls_other; [apply Nt; eauto|exact L]].
    + rewrite E. split; [exact Fr|]. split; intros p x V ws L ->; [apply lp_other; [intros []|exact L]|apply ls_other; [apply Nt; eauto|exact L]].
    + destruct (set_stat_ok_l g v idx G Al A) as (g' & -> & G' & Sm & W & R). split; [now apply frame_stats|].
      split; [intros p x V ws L ->; replace (gs_pen g') with (gs_pen g) by (symmetry; apply Sm); apply lp_other; [intros []|exact L]|].
      intros p x V ws L ->. destruct (prefix_dec idx p) as [(t & ->)|N].
      * assert (Lt : length (rev t) = length (rev (skipn (length idx) (ashape (gs_stats g))))).
        { rewrite !rev_length, skipn_length. pose proof (valid_len _ _ V) as X. rewrite app_length in X. lia. }
        destruct (supplies_exists _ _ A (rev t) Lt) as (i & S). rewrite <- (rev_involutive i) in S. rewrite (W t (rev i) V S). apply (ls_point _ _ _ ws v idx t (rev i)); [|reflexivity|exact S].
        split; [apply Al|]. split; [intro X; destruct Al as (_ & Y); apply Y; destruct (pars_dec g); tauto|]. split; [exact A|now exists t].
      * rewrite (R p N). apply ls_other; [|exact L]. intros (_ & _ & _ & t & E). now apply (N t).
  - destruct (set_penalty_l g y idx G) as (P1 & P2). destruct (inside_dec (ashape (gs_pen g)) idx) as [I|I].
    + destruct (P1 I) as (g' & -> & G' & Sm & W & R). split; [now apply frame_pens|]. split.
      * intros p x V ws L ->. destruct (prefix_dec idx p) as [(t & ->)|N].
        { rewrite (W t V). apply lp_point. split; [exact I|now exists t]. }
        rewrite (R p N). apply lp_other; [|exact L]. intros (_ & t & E). now apply (N t).
      * intros p x V ws L ->. replace (gs_stats g') with (gs_stats g) by (symmetry; apply Sm). apply ls_other; [intros []|exact L].
    + rewrite (P2 I). split; [exact Fr|]. split; intros p x V ws L ->; [apply lp_other; [now intros (X & _)|exact L]|apply ls_other; [intros []|exact L]].
  - destruct (set_stats_l g a G) as (P1 & P2). destruct (shape_dec (ashape a) (ashape (gs_stats g))) as [E|E].
    + destruct (P1 E) as (g' & -> & G' & Sm & W). split; [now apply frame_stats|]. split.
      * intros p x V ws L ->. replace (gs_pen g') with (gs_pen g) by (symmetry; apply Sm). apply lp_other; [intros []|exact L].
      * intros p x V ws L ->. rewrite W. now apply ls_all.
    + rewrite (P2 E). split; [exact Fr|]. split; intros p x V ws L ->; [apply lp_other; [intros []|exact L]|apply ls_other; [exact E|exact L]].
  - destruct (set_penalties_l g a G) as (P1 & P2). destruct (shape_dec (ashape a) (ashape (gs_pen g))) as [E|E].
    + destruct (P1 E) as (g' & -> & G' & Sm & W). split; [now apply frame_pens|]. split.
      * intros p x V ws L ->. rewrite W. now apply lp_all.
      * intros p x V ws L ->. replace (gs_stats g') with (gs_stats g) by (symmetry; apply Sm). apply ls_other; [intros []|exact L].
    + rewrite (P2 E). split; [exact Fr|]. split; intros p x V ws L ->; [apply lp_other; [exact E|exact L]|apply ls_other; [intros []|exact L]].
Qed.
Lemma new_shaped ps spec name pb un : grid_shaped (new_search ps spec name pb un).
Proof. unfold new_search, grid_shaped. cbn. destruct pb; cbn; split; try reflexivity. now rewrite app_nil_r. Qed.
Lemma all_written_l ps spec name pb un ws :
  let g := new_search ps spec name pb un in
  let g' := all_written g ws in
  unchanged_but_arrays g g' /\
  (forall p, valid_idx (ashape (gs_pen g)) p -> last_penalty (ashape (gs_pen g)) p ws (aget (gs_pen g') p)) /\
  (forall p, valid_idx (ashape (gs_stats g)) p -> last_stat (ashape (gs_stats g)) p (gs_pars g <> []) ws (aget (gs_stats g') p)).
Proof.
  intros g. pose proof (new_shaped ps spec name pb un) as G. fold g in G. induction ws as [|w ws IH] using rev_ind.
  - cbn. split; [repeat split; apply G|]. split; intros p _; [constructor|]. unfold g, new_search. cbn [gs_stats]. destruct pb; constructor.
  - destruct IH as (Fr & IP & IS). intro g'. assert (E : g' = written (all_written g ws) w) by (unfold g', all_written; now rewrite fold_left_app).
    rewrite E. destruct (frame_shapes g _ G Fr) as (Es & Ep). assert (Pp : gs_pars (all_written g ws) = gs_pars g) by apply Fr.
    destruct (written_step (all_written g ws) w (proj1 Fr)) as (F2 & P2 & S2). rewrite Es, Ep, Pp in *. split; [|split].
    + destruct Fr as (_ & A1 & A2 & A3 & A4 & A5 & A6). destruct F2 as (B0 & B1 & B2 & B3 & B4 & B5 & B6). split; [exact B0|]. repeat split; congruence.
    + intros p V. apply (P2 p _ V ws (IP p V) eq_refl).
    + intros p V. apply (S2 p _ V ws (IS p V) eq_refl).
Qed.

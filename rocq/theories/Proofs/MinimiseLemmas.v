(** Lemmas for Model/Minimise.v. *)
From Coq Require Import Lia.
From Verif Require Import Model.Base Model.PyStr Model.NDArray Model.Param Model.Spectra Model.FitParam Model.Minimise.
From Verif Require Import Spec.ArraySpec Spec.SearchSpec.
From Verif Require Import Proofs.QcLemmas Proofs.NDArrayLemmas Proofs.ParamLemmas Proofs.RebinLemmas Proofs.SmearLemmas Proofs.FitParamLemmas.

Definition positive (sh : list nat) : Prop := Forall (fun n => 0 < n) sh.
Lemma asize_pos sh : positive sh -> 0 < asize sh.
Proof. induction 1; cbn; [lia|]. apply Nat.mul_pos_pos; assumption. Qed.
Lemma seq_add_map s n k : seq (s + k) n = map (fun i => i + k) (seq s n).
Proof.
  revert s; induction n as [|n IH]; intro s; cbn; [reflexivity|]. f_equal.
  change (Datatypes.S (s + k)) with (Datatypes.S s + k). apply IH.
Qed.
Lemma seq_mul n m : seq 0 (n * m) = flat_map (fun i => map (fun j => i * m + j) (seq 0 m)) (seq 0 n).
Proof.
  induction n as [|n IH]; [reflexivity|].
  rewrite Nat.mul_succ_l, seq_app, IH, seq_S, flat_map_app. f_equal. cbn [flat_map]. rewrite app_nil_r.
  rewrite Nat.add_0_l. replace (n * m) with (0 + n * m) at 1 by lia. rewrite seq_add_map.
  apply map_ext. intro; lia.
Qed.
Lemma map_flat_map {A B C} (f : B -> C) (g : A -> list B) l : map f (flat_map g l) = flat_map (fun a => map f (g a)) l.
Proof. induction l; cbn; [reflexivity|]. now rewrite map_app, IHl. Qed.
Lemma flat_map_ext_in {A B} (f g : A -> list B) l : (forall a, In a l -> f a = g a) -> flat_map f l = flat_map g l.
Proof. induction l; cbn; intro H; [reflexivity|]. rewrite H by auto. f_equal. apply IHl; auto. Qed.
Lemma flat_map_map {A B C} (f : B -> list C) (g : A -> B) l : flat_map f (map g l) = flat_map (fun a => f (g a)) l.
Proof. induction l; cbn; [reflexivity|]. now rewrite IHl. Qed.
Lemma flat_map_flat_map {A B C} (f : B -> list C) (g : A -> list B) l :
  flat_map f (flat_map g l) = flat_map (fun a => flat_map f (g a)) l.
Proof. induction l; cbn; [reflexivity|]. now rewrite flat_map_app, IHl. Qed.
Lemma c_order_all sh : c_order sh = all_idx sh.
Proof.
  unfold c_order. induction sh as [|n sh IH]; [reflexivity|].
  cbn [asize fold_right all_idx]. change (fold_right Nat.mul 1 sh) with (asize sh).
  rewrite seq_mul, map_flat_map. apply flat_map_ext_in. intros i _.
  rewrite <- IH, !map_map. apply map_ext_in. intros j Hj. apply in_seq in Hj. cbn [unravel].
  rewrite Nat.div_add_l, Nat.div_small, Nat.add_0_r by lia. f_equal. f_equal.
  rewrite Nat.add_comm, Nat.mod_add, Nat.mod_small by lia. reflexivity.
Qed.
Lemma all_idx_length sh : length (all_idx sh) = asize sh.
Proof. rewrite <- c_order_all. unfold c_order. now rewrite map_length, seq_length. Qed.
Lemma all_idx_nth sh idx : valid_idx sh idx -> nth_error (all_idx sh) (ravel sh idx) = Some idx.
Proof.
  intro V. rewrite <- c_order_all. unfold c_order. rewrite nth_error_map_seq by (apply ravel_lt, V).
  now rewrite unravel_ravel.
Qed.
Lemma ravel_mono sh a b : valid_idx sh a -> valid_idx sh b -> idx_lt a b -> ravel sh a < ravel sh b.
Proof.
  intro Ha. revert b. induction Ha as [|x n a sh Hx Ha IH]; intros b Hb L; [destruct b; contradiction|].
  inversion Hb as [|y n' b' sh' Hy Hb' e1 e2]; subst. cbn [ravel].
  pose proof (ravel_lt _ _ Ha). pose proof (ravel_lt _ _ Hb'). destruct L as [L|[-> L]].
  - assert (x * asize sh + asize sh <= y * asize sh) by (rewrite <- Nat.mul_succ_l; apply Nat.mul_le_mono_r; lia). lia.
  - specialize (IH _ Hb' L). lia.
Qed.
Lemma all_idx_snoc sh m :
  all_idx (sh ++ [m]) = flat_map (fun idx => map (fun j => idx ++ [j]) (seq 0 m)) (all_idx sh).
Proof.
  induction sh as [|n sh IH]; cbn [all_idx app].
  - cbn. rewrite app_nil_r. induction (seq 0 m); cbn; congruence.
  - rewrite IH, flat_map_flat_map. apply flat_map_ext_in. intros i _.
    rewrite map_flat_map, flat_map_map. apply flat_map_ext_in. intros j _. now rewrite map_map.
Qed.

(** argmin and min of lists *)
Lemma qlt_true x y : qlt x y = true <-> (x < y)%Qc.
Proof. apply qlt_iff. Qed.
Lemma qlt_false x y : qlt x y = false <-> (y <= x)%Qc.
Proof.
  destruct (qlt x y) eqn:E; split; intro H; try discriminate; try reflexivity.
  - apply qlt_true in E. exfalso. qlra.
  - apply Qcnot_lt_le. intro L. apply qlt_true in L. congruence.
Qed.
Lemma argmin_from_spec l : forall best at_ pos,
  let k := argmin_from best at_ pos l in let m := min_from best l in
  (m <= best)%Qc /\ (forall j, (j < length l)%nat -> m <= nth j l 0)%Qc /\
  ((k = at_ /\ m = best) \/
   (exists i, (i < length l)%nat /\ k = (pos + i)%nat /\ nth i l 0%Qc = m /\ (m < best)%Qc /\
      forall j, (j < i)%nat -> (m < nth j l 0)%Qc)).
Proof.
  induction l as [|x l IH]; intros best at_ pos; cbn [argmin_from min_from length nth].
  - split; [qlra|]. split; [intros; lia|]. left; auto.
  - destruct (qlt x best) eqn:E.
    + apply qlt_true in E. destruct (IH x pos (Datatypes.S pos)) as [A [B C]]. cbv zeta in *.
      split; [qlra|]. split; [intros [|j] Hj; [exact A|apply B; lia]|]. right.
      destruct C as [[C1 C2]|[i [C1 [C2 [C3 [C4 C5]]]]]].
      * exists 0%nat. rewrite C1, C2. repeat split; [lia|lia|exact E|intros; lia].
      * exists (Datatypes.S i). repeat split; [lia|lia|exact C3|qlra|].
        intros [|j] Hj; [exact C4|apply C5; lia].
    + apply qlt_false in E. destruct (IH best at_ (Datatypes.S pos)) as [A [B C]]. cbv zeta in *.
      split; [exact A|]. split; [intros [|j] Hj; [qlra|apply B; lia]|].
      destruct C as [C|[i [C1 [C2 [C3 [C4 C5]]]]]]; [left; exact C|]. right.
      exists (Datatypes.S i). repeat split; [lia|lia|exact C3|exact C4|].
      intros [|j] Hj; [qlra|apply C5; lia].
Qed.
Lemma argmin_list_spec l : l <> [] -> exists k, argmin_list l = Ok k /\ (k < length l)%nat /\
  nth k l 0%Qc = min_list l /\ (forall j, (j < length l)%nat -> min_list l <= nth j l 0)%Qc /\
  (forall j, (j < k)%nat -> min_list l < nth j l 0)%Qc.
Proof.
  destruct l as [|x l]; [congruence|intros _]. cbn [argmin_list min_list].
  destruct (argmin_from_spec l x 0 1) as [A [B C]]. cbv zeta in *. eexists. split; [reflexivity|].
  destruct C as [[C1 C2]|[i [C1 [C2 [C3 [C4 C5]]]]]].
  - rewrite C1, C2. cbn [length nth]. rewrite C2 in B. repeat split; [lia| |intros; lia].
    intros [|j] Hj; [cbn; qlra|apply B; lia].
  - rewrite C2. cbn [length Nat.add nth]. repeat split; [lia|exact C3| |].
    + intros [|j] Hj; [exact A|apply B; lia].
    + intros [|j] Hj; [exact C4|apply C5; lia].
Qed.

(** One line of the last axis *)
Lemma line_length a idx : length (line a idx) = last_dim a.
Proof. unfold line. now rewrite map_length, seq_length. Qed.
Lemma line_nth a idx i : (i < last_dim a)%nat -> nth i (line a idx) 0%Qc = aget a (idx ++ [i]).
Proof.
  intro H. unfold line. rewrite (nth_indep _ 0%Qc (aget a (idx ++ [0%nat]))) by (rewrite map_length, seq_length; exact H).
  rewrite (map_nth (fun i => aget a (idx ++ [i]))), seq_nth by exact H. reflexivity.
Qed.
Definition amin_at (a : ndarray) (idx : list nat) : nat :=
  match argmin_list (line a idx) with Ok k => k | Err _ => 0 end.
Lemma amin_spec a idx : (0 < last_dim a)%nat ->
  argmin_list (line a idx) = Ok (amin_at a idx) /\ (amin_at a idx < last_dim a)%nat /\
  aget a (idx ++ [amin_at a idx]) = min_list (line a idx) /\
  (forall j, (j < last_dim a)%nat -> min_list (line a idx) <= aget a (idx ++ [j]))%Qc /\
  (forall j, (j < amin_at a idx)%nat -> min_list (line a idx) < aget a (idx ++ [j]))%Qc.
Proof.
  intro P. destruct (argmin_list_spec (line a idx)) as [k [A [B [C [D E]]]]].
  { intro Z. pose proof (line_length a idx) as L. rewrite Z in L. cbn in L. lia. }
  rewrite line_length in *. unfold amin_at. rewrite A.
  split; [reflexivity|]. split; [exact B|]. split; [rewrite <- line_nth by exact B; exact C|].
  split; intros j Hj; rewrite <- line_nth by lia; auto.
Qed.
Lemma argmin_last_ok a : (0 < last_dim a)%nat ->
  argmin_last a = Ok (map (amin_at a) (all_idx (removelast (ashape a)))).
Proof.
  intro P. unfold argmin_last. destruct (Nat.eqb_spec (last_dim a) 0); [lia|].
  rewrite c_order_all. apply rmapM_ok. intros idx _. apply amin_spec, P.
Qed.

(** first_min of an extra leading dimension *)
Lemma first_min_cons a o k m inner (c : list nat -> list nat) (mn : list nat -> Qc) idx :
  (k < m)%nat ->
  (forall i, (i < m)%nat -> first_min inner (fun j => a (o ++ i :: j)) (c (idx ++ [i])) (mn (idx ++ [i]))) ->
  (forall j, (j < m)%nat -> mn (idx ++ [k]) <= mn (idx ++ [j]))%Qc ->
  (forall j, (j < k)%nat -> mn (idx ++ [k]) < mn (idx ++ [j]))%Qc ->
  first_min (m :: inner) (fun j => a (o ++ j)) (k :: c (idx ++ [k])) (mn (idx ++ [k])).
Proof.
  intros Hk H M1 M2. destruct (H k Hk) as [V [E [L1 L2]]]. split; [|split; [|split]].
  - constructor; assumption.
  - exact E.
  - intros j Hj. inversion Hj as [|i n j' sh' Hi Hj']; subst. destruct (H i Hi) as [_ [_ [A _]]].
    apply Qcle_trans with (mn (idx ++ [i])); [apply M1, Hi|apply A, Hj'].
  - intros j Hj Lt. inversion Hj as [|i n j' sh' Hi Hj']; subst. destruct (H i Hi) as [_ [_ [A _]]].
    destruct Lt as [Lt|[-> Lt]].
    + apply Qclt_le_trans with (mn (idx ++ [i])); [apply M2, Lt|apply A, Hj'].
    + apply L2; assumption.
Qed.

Lemma removelast_snoc {A} (l : list A) x : removelast (l ++ [x]) = l.
Proof. rewrite removelast_app by discriminate. cbn. apply app_nil_r. Qed.
Lemma last_snoc {A} (l : list A) x d : last (l ++ [x]) d = x.
Proof. induction l as [|y [|z l] IH]; cbn in *; auto. Qed.

(** Positions in the flattened coordinates *)
Lemma nth_error_flat {A B} (f : A -> B) (g : A -> nat -> A) m l i j a :
  nth_error l i = Some a -> (j < m)%nat ->
  nth_error (map f (flat_map (fun x => map (g x) (seq 0 m)) l)) (i * m + j) = Some (f (g a j)).
Proof.
  revert i; induction l as [|x l IH]; intros i E Hj; [destruct i; discriminate|].
  cbn [flat_map]. rewrite map_app. destruct i as [|i].
  - injection E as ->. rewrite nth_error_app1 by (rewrite !map_length, seq_length; lia).
    rewrite map_map. cbn [Nat.mul Nat.add]. now rewrite nth_error_map_seq.
  - cbn [nth_error] in E. rewrite nth_error_app2; rewrite !map_length, seq_length; [|cbn; lia].
    replace (Datatypes.S i * m + j - m) with (i * m + j) by (cbn; lia). apply IH; assumption.
Qed.
Lemma rmapM_combine {A B C} (h : nat * B -> res C) (k : A -> B) (q : A -> C) l s :
  (forall i a, nth_error l i = Some a -> h (s + i, k a)%nat = Ok (q a)) ->
  rmapM h (combine (seq s (length (map k l))) (map k l)) = Ok (map q l).
Proof.
  revert s; induction l as [|a l IH]; intros s H; [reflexivity|].
  cbn [map length seq combine rmapM rbind]. pose proof (H 0%nat a eq_refl) as H0. rewrite Nat.add_0_r in H0.
  rewrite H0. cbn [rbind]. rewrite IH; [reflexivity|].
  intros i b Hb. replace (Datatypes.S s + i)%nat with (s + Datatypes.S i)%nat by lia. apply H. exact Hb.
Qed.

Lemma update_coords_ok o m (c : list nat -> list nat) (k : list nat -> nat) :
  positive o -> (forall idx, valid_idx o idx -> (k idx < m)%nat) ->
  update_coords (map c (all_idx (o ++ [m]))) (map k (all_idx o)) =
  Ok (map (fun idx => k idx :: c (idx ++ [k idx])) (all_idx o)).
Proof.
  intros P K. unfold update_coords. rewrite !map_length, !all_idx_length.
  pose proof (asize_pos _ P). destruct (Nat.eqb_spec (asize o) 0); [lia|].
  assert (D : asize (o ++ [m]) / asize o = m).
  { assert (E : asize (o ++ [m]) = m * asize o).
    { clear. unfold asize. induction o as [|x o IH]; cbn [app fold_right] in *; [lia|]. rewrite IH. lia. }
    rewrite E. apply Nat.div_mul. lia. }
  rewrite D. replace (asize o) with (length (map k (all_idx o))) by (now rewrite map_length, all_idx_length).
  apply rmapM_combine. intros i idx E. cbn [fst snd Nat.add].
  rewrite all_idx_snoc. rewrite (nth_error_flat c (fun x j => x ++ [j]) m _ i (k idx) idx E); [reflexivity|].
  apply K. apply all_idx_valid. eapply nth_error_In, E.
Qed.

(** Invariant of the loop: [o] the outer shape left, [inner] the collapsed one. *)
Definition mins_are (a : list nat -> Qc) (o inner : list nat) (mn : ndarray) (c : list nat -> list nat) : Prop :=
  ashape mn = o /\
  forall idx, valid_idx o idx -> first_min inner (fun j => a (idx ++ j)) (c idx) (aget mn idx).

Lemma valid_snoc o m idx i : valid_idx o idx -> (i < m)%nat -> valid_idx (o ++ [m]) (idx ++ [i]).
Proof. intros H Hi. apply Forall2_app; [exact H|]. constructor; [exact Hi|constructor]. Qed.

Lemma min_last_inv a o m inner mn c : mins_are a (o ++ [m]) inner mn c -> (0 < m)%nat ->
  mins_are a o (m :: inner) (min_last mn) (fun idx => amin_at mn idx :: c (idx ++ [amin_at mn idx])).
Proof.
  intros [S H] Pm. assert (LD : last_dim mn = m) by (unfold last_dim; rewrite S; apply last_snoc).
  split; [unfold min_last; rewrite S; cbn [ashape]; apply removelast_snoc|].
  intros idx V. pose proof (amin_spec mn idx) as SP. rewrite LD in SP. destruct (SP Pm) as [_ [B [C [D E]]]].
  unfold min_last; cbn [aget]. rewrite <- C.
  apply (first_min_cons a idx (amin_at mn idx) m inner c (aget mn) idx).
  - exact B.
  - intros i Hi. specialize (H (idx ++ [i]) (valid_snoc _ _ _ _ V Hi)).
    destruct H as [H1 [H2 [H3 H4]]]. split; [exact H1|]. split; [rewrite <- app_assoc in H2; exact H2|].
    split; intros j Hj; [specialize (H3 j Hj)|intro Lt; specialize (H4 j Hj Lt)]; rewrite <- app_assoc in *; assumption.
  - intros j Hj. rewrite C. apply D, Hj.
  - intros j Hj. rewrite C. apply E, Hj.
Qed.

Lemma find_loop_ok a : forall n o inner mn c, length o = n -> positive o -> mins_are a o inner mn c ->
  exists mn' c', find_loop n mn (Some (map c (all_idx o))) = Ok (mn', Some [c']) /\
    first_min (o ++ inner) a c' (aget mn' []).
Proof.
  induction n as [|n IH]; intros o inner mn c Ln P I.
  - destruct o; [|discriminate]. cbn [find_loop all_idx map]. exists mn, (c []). split; [reflexivity|].
    destruct I as [_ I]. apply (I []). constructor.
  - destruct (exists_last (l := o)) as [o' [m E]]; [intro Z; subst; discriminate|]. subst o.
    rewrite app_length in Ln. cbn in Ln. assert (Ln' : length o' = n) by lia.
    apply Forall_app in P. destruct P as [P Pm]. inversion Pm as [|? ? Pm' _]; subst; clear Pm.
    assert (S : ashape mn = o' ++ [m]) by apply I.
    assert (LD : last_dim mn = m) by (unfold last_dim; rewrite S; apply last_snoc).
    cbn [find_loop]. rewrite argmin_last_ok by (rewrite LD; exact Pm'). rewrite S, removelast_snoc. cbn [rbind].
    assert (K : forall idx, valid_idx o' idx -> (amin_at mn idx < m)%nat).
    { intros idx _. rewrite <- LD. apply amin_spec. rewrite LD. exact Pm'. }
    assert (U : (if 0 <? length o' then update_coords (map c (all_idx (o' ++ [m]))) (map (amin_at mn) (all_idx o'))
                 else match map (amin_at mn) (all_idx o') with
                      | [j] => match nth_error (map c (all_idx (o' ++ [m]))) j with Some row => Ok [j :: row] | None => Err EIndexError end
                      | _ => Err EIndexError end)
      = Ok (map (fun idx => amin_at mn idx :: c (idx ++ [amin_at mn idx])) (all_idx o'))).
    { destruct o' as [|x o'].
      - specialize (K [] ltac:(constructor)).
        pose proof (nth_error_flat c (fun x j => x ++ [j]) m [[]] 0 (amin_at mn []) [] eq_refl K) as N.
        change [[]] with (all_idx []) in N. rewrite <- all_idx_snoc in N. cbn [Nat.mul Nat.add] in N.
        change (all_idx []) with [@nil nat]. cbn [length map Nat.ltb Nat.leb]. rewrite N. reflexivity.
      - cbn [length]. destruct (Nat.ltb_spec 0 (Datatypes.S (length o'))); [|lia]. apply update_coords_ok; assumption. }
    rewrite U. cbn [rbind].
    destruct (IH o' (m :: inner) (min_last mn) (fun idx => amin_at mn idx :: c (idx ++ [amin_at mn idx])) eq_refl P) as [mn' [c' [E1 E2]]].
    { apply min_last_inv; assumption. }
    exists mn', c'. split; [exact E1|]. rewrite <- app_assoc. exact E2.
Qed.

Lemma find_minimum_l a : ashape a <> [] -> positive (ashape a) ->
  exists m pos, find_minimum a = Ok (m, pos) /\ first_min (ashape a) (aget a) pos m.
Proof.
  intros NE P. destruct (exists_last NE) as [o [n E]].
  unfold find_minimum, andim. rewrite E, app_length. cbn [length]. rewrite Nat.add_1_r. cbn [find_loop].
  pose proof P as P'. rewrite E in P'. apply Forall_app in P'. destruct P' as [Po Pn]. inversion Pn as [|? ? Pn' _]; subst.
  assert (LD : last_dim a = n) by (unfold last_dim; rewrite E; apply last_snoc).
  rewrite argmin_last_ok by (rewrite LD; exact Pn'). rewrite E, removelast_snoc. cbn [rbind].
  rewrite map_map.
  destruct (find_loop_ok (aget a) (length o) o [n] (min_last a) (fun idx => [amin_at a idx]) eq_refl Po) as [mn' [c' [E1 E2]]].
  { apply (min_last_inv (aget a) o n [] a (fun _ => [])); [|exact Pn'].
    split; [exact E|]. intros idx V. split; [constructor|]. rewrite app_nil_r. split; [reflexivity|].
    split; intros j Hj; [|intro L]; inversion Hj; subst; [rewrite app_nil_r; qlra|destruct L]. }
  rewrite E1. cbn [rbind snd fst]. exists (aget mn' []), (concat [c']). split; [reflexivity|].
  cbn [concat]. rewrite app_nil_r. exact E2.
Qed.

Lemma nth_map_all (f : list nat -> Qc) sh idx : valid_idx sh idx ->
  nth (ravel sh idx) (map f (all_idx sh)) 0%Qc = f idx.
Proof.
  intro V. assert (L : (ravel sh idx < length (map f (all_idx sh)))%nat)
    by (rewrite map_length, all_idx_length; apply ravel_lt, V).
  rewrite (nth_indep _ 0%Qc (f [])) by exact L. rewrite map_nth. f_equal.
  apply nth_error_nth. now rewrite (all_idx_nth sh idx V).
Qed.
Lemma unravel_valid sh k : (k < asize sh)%nat -> valid_idx sh (unravel sh k) /\ ravel sh (unravel sh k) = k.
Proof.
  revert k; induction sh as [|n sh IH]; intros k H; [split; [constructor|cbn in *; lia]|].
  cbn [unravel ravel]. cbn [asize fold_right] in H. change (fold_right Nat.mul 1 sh) with (asize sh) in H.
  assert (Z : asize sh <> 0%nat) by (intro Z; rewrite Z in H; lia).
  destruct (IH (k mod asize sh)) as [A B]; [apply Nat.mod_upper_bound, Z|].
  split; [constructor; [apply Nat.div_lt_upper_bound; [exact Z|lia]|exact A]|].
  rewrite B. pose proof (Nat.div_mod k (asize sh) Z). lia.
Qed.
Lemma numpy_minimum_l a : positive (ashape a) ->
  exists m pos, numpy_minimum a = Ok (m, pos) /\ first_min (ashape a) (aget a) pos m.
Proof.
  intro P. unfold numpy_minimum. rewrite c_order_all.
  destruct (argmin_list_spec (map (aget a) (all_idx (ashape a)))) as [k [A [B [C [D E]]]]].
  { intro Z. apply (f_equal (@length _)) in Z. rewrite map_length, all_idx_length in Z. cbn in Z.
    pose proof (asize_pos _ P). lia. }
  rewrite A. cbn [rbind]. do 2 eexists. split; [reflexivity|].
  rewrite map_length, all_idx_length in *. destruct (unravel_valid _ _ B) as [V R].
  split; [exact V|]. split; [rewrite <- C; rewrite <- (nth_map_all _ _ _ V), R; reflexivity|].
  split; intros idx Hi; [|intro L].
  - rewrite <- (nth_map_all (aget a) _ _ Hi). apply D, ravel_lt, Hi.
  - rewrite <- (nth_map_all (aget a) _ _ Hi). apply E. rewrite <- R. now apply ravel_mono.
Qed.
(** first minima are unique *)
Lemma idx_trich sh a b : valid_idx sh a -> valid_idx sh b -> idx_lt a b \/ a = b \/ idx_lt b a.
Proof.
  intro Ha; revert b; induction Ha as [|x n a sh Hx Ha IH]; intros b Hb; inversion Hb; subst; [auto|].
  cbn [idx_lt]. destruct (Nat.lt_trichotomy x x0) as [L|[->|L]]; [auto| |auto].
  match goal with H : Forall2 _ _ sh |- _ => destruct (IH _ H) as [L|[->|L]]; auto end.
Qed.
Lemma first_min_unique sh f p m p' m' : first_min sh f p m -> first_min sh f p' m' -> p = p' /\ m = m'.
Proof.
  intros [V [E [A B]]] [V' [E' [A' B']]].
  assert (m = m'). { apply Qcle_antisym; [rewrite <- E'; apply A, V'|rewrite <- E; apply A', V]. }
  split; [|assumption]. destruct (idx_trich sh p p' V V') as [L|[L|L]]; [|exact L|]; exfalso.
  - specialize (B' p V L). qlra.
  - specialize (B p' V' L). qlra.
Qed.
Lemma minima_agree_l a : ashape a <> [] -> positive (ashape a) -> find_minimum a = numpy_minimum a.
Proof.
  intros NE P. destruct (find_minimum_l a NE P) as [m [p [-> F]]]. destruct (numpy_minimum_l a P) as [m' [p' [-> F']]].
  destruct (first_min_unique _ _ _ _ _ _ F F') as [-> ->]. reflexivity.
Qed.

From Coq Require Import Lia Permutation.
From Verif Require Import Model.Base Model.PyStr Model.NDArray Model.Param Model.Config Model.Spectra Model.Store Model.Combine.
From Verif Require Import Spec.ArraySpec Spec.SpectraSpec Spec.StoreSpec Spec.CombineSpec.
From Verif Require Import Proofs.QcLemmas Proofs.OpsLemmas Proofs.NameLemmas Proofs.StoreLemmas Proofs.FileLemmas.
Local Open Scope string_scope.

Section C.
Variable pf : string -> res Qc.
Variable e : Qc.

Lemma total_perm f l l' : Permutation l l' -> total f l = total f l'.
Proof.
  unfold total, qsum. induction 1; cbn; [reflexivity| |ring|congruence].
  rewrite IHPermutation. reflexivity.
Qed.
Lemma total_int_perm f l l' : Permutation l l' -> total_int f l = total_int f l'.
Proof. unfold total_int. induction 1; cbn; lia. Qed.

Lemma add_files_ok fs r : forall s s', add_files pf e fs s r = Ok s' ->
  exists ts, Forall2 (fun f t => load pf e (fs f) = Ok t) r ts /\
    is_total (st_spec s') (map st_spec (s :: ts)) /\
    ashape (s_data (st_spec s')) = ashape (s_data (st_spec s)) /\
    s_name (st_spec s') = s_name (st_spec s) /\ s_bg (st_spec s') = s_bg (st_spec s) /\ s_cfg (st_spec s') = s_cfg (st_spec s) /\
    s_bipo (st_spec s') = s_bipo (st_spec s) /\ s_rois (st_spec s') = s_rois (st_spec s) /\
    st_cfg_name s' = st_cfg_name s /\ st_fit s' = st_fit s /\ st_style s' = st_style s.
Proof.
  induction r as [|f r IH]; intros s s' H; cbn [add_files] in H.
  - injection H as <-. exists []. split; [constructor|]. split; [|repeat split].
    unfold is_total, total, total_int, qsum. cbn. repeat split; try (intros; ring); try lia.
  - unfold rbind in H. destruct (load pf e (fs f)) as [t|] eqn:L; [|discriminate].
    destruct (s_add (st_spec t) (st_spec s)) as [sp [x|]] eqn:A; [discriminate|].
    apply add_l in A as (S1 & S2 & Ag & Dc & Rw & Cf & Nm & Ro & Bg & Bi & _).
    apply IH in H as (ts & F & T & Sh & N & B & C & P & R & N2 & F2 & Y). cbn [with_spec st_spec st_cfg_name st_fit st_style] in *.
    exists (t :: ts). split; [constructor; assumption|]. destruct T as (T1 & T2 & T3). split.
    + unfold is_total, total, total_int, qsum in *. cbn [map fold_right with_spec st_spec] in *. split; [|split].
      * intro idx. rewrite T1, Ag. ring.
      * rewrite T2, Dc. ring.
      * rewrite T3, Rw. ring.
    + repeat split; congruence.
Qed.

Lemma add_check_ext s s' o : s_cfg s = s_cfg s' -> ashape (s_data s) = ashape (s_data s') -> add_check s o = add_check s' o.
Proof. unfold add_check. intros -> ->. reflexivity. Qed.
Lemma add_none s o : snd (s_add o s) = None <-> add_check s o = Ok tt.
Proof. unfold s_add. destruct (add_check s o) as [[]|]; cbn; split; congruence. Qed.

Lemma add_files_total fs r : forall s ts, Forall2 (fun f t => load pf e (fs f) = Ok t) r ts ->
  Forall (fun t => snd (s_add (st_spec t) (st_spec s)) = None) ts -> exists s', add_files pf e fs s r = Ok s'.
Proof.
  induction r as [|f r IH]; intros s ts F A; cbn [add_files]; [eauto|].
  inversion F as [|x t y ts' L F']; subst. inversion A as [|x' y' A1 A2]; subst.
  rewrite L. cbn [rbind]. destruct (s_add (st_spec t) (st_spec s)) as [sp [z|]] eqn:E; [discriminate|].
  apply (IH _ ts'); [assumption|]. cbn [with_spec st_spec].
  apply add_l in E as (_ & Sh & _ & _ & _ & Cf & _).
  eapply Forall_impl; [|exact A2]. cbn. intros u H. apply add_none in H. apply add_none.
  rewrite <- H. apply add_check_ext; congruence.
Qed.

Lemma combine_total_l fs files fs' : combine pf e fs files = (fs', None) ->
  (forall f s, In f files -> load pf e (fs f) = Ok s -> spectrum_storable s) ->
  (2 <= length files)%nat /\
  exists ss out, Forall2 (fun f s => load pf e (fs f) = Ok s) files ss /\
    load pf e (fs' "combined.hdf5") = Ok out /\ is_total (st_spec out) (map st_spec ss) /\
    (forall f, f <> "combined.hdf5" -> fs' f = fs f) /\
    match ss with
    | [] => False
    | s :: _ => ashape (s_data (st_spec out)) = ashape (s_data (st_spec s)) /\
                s_name (st_spec out) = s_name (st_spec s) /\ s_cfg (st_spec out) = s_cfg (st_spec s)
    end.
Proof.
  intros H St. unfold combine in H. destruct files as [|f [|g r]]; [discriminate|discriminate|].
  split; [cbn; lia|]. unfold rbind in H.
  destruct (load pf e (fs f)) as [s|] eqn:L; [|discriminate].
  destruct (add_files pf e fs s (g :: r)) as [s1|] eqn:A; [|discriminate].
  destruct (dump (fs "combined.hdf5") s1 false false) as [[f' s2] x] eqn:D. injection H as <- ->.
  apply add_files_ok in A as (ts & F & T & Sh & N & B & C & P & R & N2 & F2 & Y).
  assert (S1 : spectrum_storable s1).
  { specialize (St f s (or_introl eq_refl) L). unfold spectrum_storable in *. rewrite C, F2, Y. exact St. }
  destruct (load_dump_l pf e _ _ _ _ _ _ D S1) as (bg & _ & L2).
  exists (s :: ts). eexists. split; [constructor; assumption|]. split.
  { unfold write_file. rewrite String.eqb_refl. exact L2. }
  cbn [st_spec]. split; [exact T|]. split.
  - intros h Nh. unfold write_file. destruct (String.eqb_spec h "combined.hdf5"); congruence.
  - cbn [s_data s_name s_cfg]. auto.
Qed.

Lemma combine_succeeds_l fs files ss : (2 <= length files)%nat ->
  Forall2 (fun f s => load pf e (fs f) = Ok s) files ss -> compatible ss -> Forall good_file ss ->
  exists fs', combine pf e fs files = (fs', None).
Proof.
  intros Len F C G. destruct files as [|f [|g r]]; [cbn in Len; lia|cbn in Len; lia|].
  inversion F as [|x s y ts L F']; subst. inversion G as [|x y G1 G2]; subst.
  unfold combine. rewrite L. cbn [rbind].
  destruct (add_files_total fs (g :: r) s ts F') as [s1 A].
  { apply Forall_forall. intros t I. apply C; [now left|now right]. }
  rewrite A. pose proof (add_files_ok _ _ _ _ A) as (ts' & _ & _ & Sh & N & B & _).
  destruct G1 as (_ & Gs & bg & Gb).
  destruct (dump_ok_l (fs "combined.hdf5") s1 false false bg) as (f' & s2 & D).
  - now left.
  - revert Gb. unfold get_background_name. rewrite N, B.
    destruct (s_bg (st_spec s)) as [[|? ?]|]; cbn; auto;
      repeat match goal with |- context [if ?b then _ else _] => destruct b end; cbn; auto.
  - congruence.
  - rewrite D. eauto.
Qed.

Lemma combine_rejected_l fs files fs' x : combine pf e fs files = (fs', Some x) ->
  (forall ss, Forall2 (fun f s => load pf e (fs f) = Ok s) files ss -> Forall good_file ss) -> fs' = fs.
Proof.
  intros H G. unfold combine in H. destruct files as [|f [|g r]]; [congruence|congruence|]. unfold rbind in H.
  destruct (load pf e (fs f)) as [s|] eqn:L; [|congruence].
  destruct (add_files pf e fs s (g :: r)) as [s1|] eqn:A; [|congruence].
  pose proof (add_files_ok _ _ _ _ A) as (ts & F & _ & Sh & N & B & _).
  assert (Gs := G (s :: ts) ltac:(constructor; assumption)). inversion Gs as [|? ? G1 _]; subst. destruct G1 as (_ & G1 & bg & Gb).
  destruct (dump_ok_l (fs "combined.hdf5") s1 false false bg) as (f' & s2 & D).
  - now left.
  - revert Gb. unfold get_background_name. rewrite N, B.
    destruct (s_bg (st_spec s)) as [[|? ?]|]; cbn; auto;
      repeat match goal with |- context [if ?b then _ else _] => destruct b end; cbn; auto.
  - congruence.
  - rewrite D in H. congruence.
Qed.

Lemma forall2_perm {A B} (R : A -> B -> Prop) l l' : Permutation l l' -> forall m, Forall2 R l m -> exists m', Permutation m m' /\ Forall2 R l' m'.
Proof.
  induction 1; intros m F.
  - exists m. split; [reflexivity|assumption].
  - inversion F; subst. destruct (IHPermutation _ H4) as (m' & P & F'). exists (y :: m'). split; [now constructor|now constructor].
  - inversion F; subst. inversion H3; subst. eexists (_ :: _ :: _). split; [apply perm_swap|repeat constructor; assumption].
  - destruct (IHPermutation1 _ F) as (m1 & P1 & F1). destruct (IHPermutation2 _ F1) as (m2 & P2 & F2).
    exists m2. split; [now transitivity m1|assumption].
Qed.

Lemma combine_order_l fs files files' ss : (2 <= length files)%nat -> Permutation files files' ->
  Forall2 (fun f s => load pf e (fs f) = Ok s) files ss -> compatible ss -> Forall good_file ss ->
  exists fs1 fs2 a b,
    combine pf e fs files = (fs1, None) /\ combine pf e fs files' = (fs2, None) /\
    load pf e (fs1 "combined.hdf5") = Ok a /\ load pf e (fs2 "combined.hdf5") = Ok b /\
    ashape (s_data (st_spec a)) = ashape (s_data (st_spec b)) /\
    (forall idx, aget (s_data (st_spec a)) idx = aget (s_data (st_spec b)) idx) /\
    s_decays (st_spec a) = s_decays (st_spec b) /\ s_raw (st_spec a) = s_raw (st_spec b).
Proof.
  intros Len P F C G. destruct (forall2_perm _ _ _ P _ F) as (ss' & P' & F').
  assert (Len' : (2 <= length files')%nat) by (rewrite <- (Permutation_length P); assumption).
  assert (C' : compatible ss') by (intros s t I J; apply C; eapply Permutation_in; try apply Permutation_sym; eassumption).
  assert (G' : Forall good_file ss').
  { rewrite Forall_forall in *. intros s I. apply G. eapply Permutation_in; [apply Permutation_sym|]; eassumption. }
  destruct (combine_succeeds_l _ _ _ Len F C G) as [fs1 E1].
  destruct (combine_succeeds_l _ _ _ Len' F' C' G') as [fs2 E2].
  assert (Fun : forall fl l l', Forall2 (fun f s => load pf e (fs f) = Ok s) fl l -> Forall2 (fun f s => load pf e (fs f) = Ok s) fl l' -> l = l').
  { induction fl; intros l l' A B; inversion A; inversion B; subst; [reflexivity|]. f_equal; [congruence|auto]. }
  assert (St : forall fl l, Forall2 (fun f s => load pf e (fs f) = Ok s) fl l -> Forall good_file l ->
             forall f s, In f fl -> load pf e (fs f) = Ok s -> spectrum_storable s).
  { induction 1 as [|f0 s0 fl l L FF IH]; intros GG f s I Lf; [destruct I|]. inversion GG as [|? ? [GA _] GB]; subst. destruct I as [<-|I].
    - replace s with s0 by congruence. exact GA.
    - eauto. }
  destruct (combine_total_l _ _ _ E1 (St _ _ F G)) as (_ & l1 & a & F1 & La & Ta & _ & Ma).
  destruct (combine_total_l _ _ _ E2 (St _ _ F' G')) as (_ & l2 & b & F2 & Lb & Tb & _ & Mb).
  rewrite (Fun _ _ _ F1 F) in *. rewrite (Fun _ _ _ F2 F') in *. clear F1 F2 l1 l2.
  exists fs1, fs2, a, b. repeat (split; [assumption|]).
  destruct Ta as (A1 & A2 & A3), Tb as (B1 & B2 & B3).
  assert (PM : Permutation (map st_spec ss) (map st_spec ss')) by now apply Permutation_map.
  split; [|split; [|split]].
  - destruct ss as [|s ss]; [destruct Ma|]. destruct ss' as [|t ss']; [destruct Mb|].
    destruct Ma as [-> _], Mb as [-> _].
    assert (It : In t (s :: ss)) by (eapply Permutation_in; [apply Permutation_sym; exact P'|now left]).
    specialize (C s t (or_introl eq_refl) It). destruct (s_add (st_spec t) (st_spec s)) as [u [|]] eqn:E; [discriminate|].
    now apply add_l in E as (E & _).
  - intro idx. rewrite A1, B1. now apply total_perm.
  - rewrite A2, B2. now apply total_perm.
  - rewrite A3, B3. now apply total_int_perm.
Qed.
End C.

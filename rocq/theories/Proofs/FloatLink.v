(** The exact histories of Spec/FloatRunSpec.v are those of the methods of Model/Spectra.v. *)
From Coq Require Import ZArith Lia.
From Flocq Require Import IEEE754.Binary IEEE754.Bits.
From Verif Require Import Model.Base Model.NDArray Model.Param Model.Config Model.Spectra Model.FloatFill Model.FloatArray.
From Verif Require Import Spec.FloatRunSpec.

Definition content (s : spectra) : ndarray * Qc := (s_data s, s_decays s).
Lemma fill_link w kw s s' : fill (exact w) kw s = (s', None) -> exists bins, e_step (FFill bins w) (content s) = (content s', None).
Proof.
  unfold fill, fill_data, rbind. intro H. destruct (fill_check_unknown _ _); [|discriminate]. destruct (fill_check_missing _ _); [|discriminate].
  destruct (fill_check_range _ _); [|discriminate]. destruct (fill_bins kw (s_cfg s)) as [bins|]; [|discriminate].
  exists bins. cbn [e_step content]. destruct (aadd_at (s_data s) bins (exact w)); [|discriminate]. injection H as <-. reflexivity.
Qed.
Lemma add_link o fo s s' : s_add o s = (s', None) -> s_data o = exact_array (fs_data fo) -> s_decays o = exact (fs_decays fo) ->
  e_step (FAdd fo) (content s) = (content s', None).
Proof.
  unfold s_add, add_check. intros H D N. cbn [e_step content]. destruct (shape_eqb (ashape (s_data s)) (ashape (s_data o))) eqn:Sh; [|discriminate].
  cbn [negb] in H. destruct (rbind _ _); [|discriminate]. rewrite D in Sh. cbn [exact_array ashape] in Sh. rewrite Sh. injection H as <-. cbn. now rewrite D, N.
Qed.
Lemma scale_link n s s' : scale (exact n) s = (s', None) -> e_step (FScale n) (content s) = (content s', None).
Proof. unfold scale. intro H. cbn [e_step content]. destruct (qdiv _ _); [|discriminate]. injection H as <-. reflexivity. Qed.
Lemma shrink_slice kw s s' : shrink kw s = (s', None) -> exists sl, aslice sl (s_data s) = Ok (s_data s') /\ s_decays s' = s_decays s.
Proof.
  unfold shrink. destruct (shrink_check _ _); [|discriminate]. destruct (shrink_pars kw (s_cfg s)) as [c [[|sl sls]|e]]; try discriminate.
  cbn. destruct (aslice (sl :: sls) (s_data s)) as [d|] eqn:E; [|discriminate]. intro H. injection H as <-. exists (sl :: sls). split; [exact E|reflexivity].
Qed.
Lemma shrink_link kw s s' : shrink kw s = (s', None) -> exists sl, e_step (FShrink sl) (content s) = (content s', None).
Proof. intro H. destruct (shrink_slice _ _ _ H) as (sl & A & B). exists sl. cbn [e_step content]. rewrite A. unfold content. now rewrite B. Qed.
Lemma cut_link kw s s' : cut kw s = (s', None) -> exists sl, forall t1 t2, e_step (FCut sl t1 t2) (content s) = (content s', None).
Proof.
  unfold cut. destruct (shrink kw s) as [s1 [e|]] eqn:E; [discriminate|]. destruct (shrink_slice _ _ _ E) as (sl & A & B). intro H. exists sl. intros t1 t2.
  cbn [e_step content]. rewrite A. unfold s_sum in H. destruct (qdiv (asum (s_data s1)) (asum (s_data s))); [|discriminate]. injection H as <-. cbn. unfold content. cbn. now rewrite B.
Qed.
Lemma rebin_link b s s' : rebin b s = (s', None) -> forall ords, e_step (FRebin b ords) (content s) = (content s', None).
Proof.
  unfold rebin. destruct (negb _); [discriminate|]. destruct (rebin_pars (s_cfg s) b) as [c [e|]]; [discriminate|].
  destruct (rebin_data b (s_data s)) eqn:E; [|discriminate]. intro H. injection H as <-. intro ords. unfold content. cbn [e_step]. rewrite E. reflexivity.
Qed.

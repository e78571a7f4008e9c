(** Extractors made with a choice of the position to cut on. *)
From Coq Require Import Reals Lra ZArith.
From Verif Require Import Model.Base Model.DSExtract.
From Verif Require Import Spec.ExtractSpec Spec.CutPositionSpec Proofs.ExtractLemmas.
Local Open Scope R_scope.

Ltac kinds := cbn [In true_kinds reco_kinds] in *; unfold true_kinds, reco_kinds in *; cbn [In] in *.
Lemma not_both k : In k true_kinds -> ~ In k reco_kinds.
Proof. intros H H'. kinds. destruct H as [<-|[<-|[<-|[<-|[]]]]], H' as [A|[A|[A|[]]]]; discriminate A. Qed.
Lemma tagged_true k external e : In k true_kinds -> (tagged k external e <-> n_mc e = 1%Z /\ (external = true -> n_scintFit e = 1%Z)).
Proof. intro H. pose proof (not_both k H) as N. unfold tagged. split; [intros [(_ & A)|(B & _)]; [exact A|destruct (N B)]|intro A; left; now split]. Qed.
Lemma tagged_reco k external e : In k reco_kinds -> (tagged k external e <-> n_scintFit e = 1%Z /\ (k = EnergyReco -> 0 < n_energy e)).
Proof. intro H. unfold tagged. split; [intros [(B & _)|(_ & A)]; [destruct (not_both k B H)|exact A]|intro A; right; now split]. Qed.
Lemma inside_true k external other r e : In k true_kinds ->
  (inside k external other r e <-> if external || other then n_scintFit e = 1%Z /\ within r (n_pos e) else within r (n_mcPos e)).
Proof.
  intro H. pose proof (not_both k H) as N. unfold inside. split.
  - intros [(_ & -> & -> & W)|[(_ & O & F & W)|[(B & _)|(B & _)]]]; [exact W| |destruct (N B)|destruct (N B)].
    destruct O as [-> | ->]; rewrite ?Bool.orb_true_r; now split.
  - destruct external, other; cbn [orb]; intro A; [right; left| right; left|right; left|left]; tauto.
Qed.
Lemma inside_reco k external other r e : In k reco_kinds -> (inside k external other r e <-> if other then within r (n_mcPos e) else within r (n_pos e)).
Proof.
  intro H. unfold inside. split.
  - intros [(B & _)|[(B & _)|[(_ & -> & W)|(_ & -> & W)]]]; try destruct (not_both k B H); exact W.
  - destruct other; intro A; right; right; [right|left]; now split.
Qed.
Ltac member := unfold true_kinds, reco_kinds; cbn [In]; tauto.
Lemma cut_ntuple_l k r external other outer x e : r <> 0 -> mk_dsx k (Some r) external other outer = Ok x ->
  (valid_ntuple x e = true <-> tagged k external e /\ inside k external other r e).
Proof.
  intros Nz M. destruct k; try discriminate M;
    first [rewrite tagged_true, inside_true by member|rewrite tagged_reco, inside_reco by member];
    destruct external, other; cbn in M; try discriminate M; injection M as <-;
    unfold valid_ntuple, fv_cut_ntuple; cbn [x_kind x_fv x_ext x_other is_reco_kind negb andb orb]; rewrite (truthy_nz _ Nz);
    destruct (Z.eqb_spec (n_scintFit e) 1); try destruct (Z.eqb_spec (n_mc e) 1); cbn [negb andb];
    try (destruct (Rltb 0 (n_energy e)) eqn:En; [apply Rltb_iff in En|assert (~ 0 < n_energy e) by (intro A; apply Rltb_iff in A; congruence)]);
    rewrite ?Rltb_within; intuition congruence.
Qed.
Lemma nocut_ntuple_l k external other outer x e : mk_dsx k None external other outer = Ok x ->
  (valid_ntuple x e = true <-> tagged k external e).
Proof.
  intros M. destruct k; try discriminate M; first [rewrite tagged_true by member|rewrite tagged_reco by member];
    destruct external, other; cbn in M; try discriminate M; injection M as <-;
    unfold valid_ntuple; cbn [x_kind x_fv x_ext x_other truthy negb andb];
    destruct (Z.eqb_spec (n_scintFit e) 1); try destruct (Z.eqb_spec (n_mc e) 1); cbn [negb andb];
    try (destruct (Rltb 0 (n_energy e)) eqn:En; [apply Rltb_iff in En|assert (~ 0 < n_energy e) by (intro A; apply Rltb_iff in A; congruence)]);
    intuition congruence.
Qed.
Lemma made_l k fv external other outer :
  (In k true_kinds -> (external = true -> k = EnergyMC \/ k = EnergyTruth) -> exists x, mk_dsx k fv external other outer = Ok x /\ x_kind x = k /\ x_fv x = fv) /\
  (In k reco_kinds -> (external = true -> other = false) -> exists x, mk_dsx k fv external other outer = Ok x /\ x_kind x = k /\ x_fv x = fv) /\
  (k = RadialMC \/ k = Radial3MC -> external = true -> mk_dsx k fv external other outer = Err EValueError) /\
  (In k reco_kinds -> external = true -> other = true -> mk_dsx k fv external other outer = Err EValueError) /\
  (k = ZRadial3MC \/ k = ZRadial3Reco -> mk_dsx k fv external other outer = Err ETypeError).
Proof.
  split; [|split; [|split; [|split]]].
  - intros H E. destruct k, external; kinds; try (exfalso; intuition discriminate); eexists; (split; [reflexivity|split; reflexivity]).
  - intros H E. destruct k, external; kinds; try (exfalso; intuition discriminate); try rewrite (E eq_refl); eexists; (split; [reflexivity|split; reflexivity]).
  - intros [->| ->] ->; reflexivity.
  - intros H -> ->. destruct k; kinds; try (exfalso; intuition discriminate); reflexivity.
  - intros [->| ->]; reflexivity.
Qed.
Lemma cut_root_mc_l k r external other outer x d : In k true_kinds -> r <> 0 -> mk_dsx k (Some r) external other outer = Ok x ->
  (external = false -> other = false -> exists b, valid_root_mc x d = Ok b /\ (b = true <-> within r (m_pos (d_mc d)))) /\
  (external = true \/ other = true ->
     match d_evs d with
     | [ev] => exists b, valid_root_mc x d = Ok b /\ (b = true <-> within r (e_pos ev))
     | _ => valid_root_mc x d = Err EValueError
     end).
Proof.
  intros Hk Nz M. unfold valid_root_mc.
  assert (F : x_fv x = Some r) by (destruct k, external, other; cbn in M; try discriminate M; injection M as <-; reflexivity).
  rewrite F, (truthy_nz _ Nz). unfold fv_cut_root_mc. split.
  - intros -> ->. assert (O : x_other x = false) by (destruct k; cbn in M; try discriminate M; injection M as <-; reflexivity).
    rewrite O. cbn [negb]. eexists. split; [reflexivity|apply Rltb_within].
  - intros H. assert (O : x_other x = true).
    { destruct k, external, other; kinds; try (exfalso; intuition discriminate); cbn in M; try discriminate M; injection M as <-; reflexivity. }
    rewrite O. cbn [negb]. destruct (d_evs d) as [|ev [|? ?]]; try reflexivity. eexists. split; [reflexivity|apply Rltb_within].
Qed.
Lemma cut_root_ev_l k r external other outer x d ev : In k reco_kinds -> r <> 0 -> mk_dsx k (Some r) external other outer = Ok x ->
  (valid_root_ev x d ev = true <-> e_fit ev = true /\
     (if match k with RadialReco => true | _ => false end then e_hasP ev = true /\ e_validP ev = true else e_hasE ev = true /\ e_validE ev = true) /\
     within r (if other then m_pos (d_mc d) else e_pos ev)).
Proof.
  intros Hk Nz M.
  assert (A : x_kind x = k /\ x_fv x = Some r /\ x_other x = other).
  { destruct k, external, other; kinds; try (exfalso; intuition discriminate); cbn in M; try discriminate M; injection M as <-; repeat split. }
  destruct A as (A1 & A2 & A3). unfold valid_root_ev, fv_cut_root_ev. rewrite A1, A2, A3, (truthy_nz _ Nz).
  destruct k; kinds; try (exfalso; intuition discriminate);
    destruct (e_fit ev), (e_hasE ev), (e_validE ev), (e_hasP ev), (e_validP ev), other; cbn [andb negb]; rewrite ?Rltb_within; intuition congruence.
Qed.

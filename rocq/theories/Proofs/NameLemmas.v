(** Spectra.get_background_name (C56). *)
From Coq Require Import Lia.
From Verif Require Import Model.Base Model.PyStr Model.NDArray Model.Param Model.Config Model.Spectra.
From Verif Require Import Proofs.StrLemmas.
Local Open Scope string_scope.

Lemma starts_with_nochar c p a r :
  has_char c p = false -> starts_with p (a ++ String c r) = true -> starts_with p a = true.
Proof.
  revert a. induction p as [|x p IH]; intros a H S; [reflexivity|].
  cbn in H. apply orb_false_iff in H as [H1 H2]. destruct a as [|y a]; cbn in *.
  - rewrite H1 in S. discriminate.
  - apply andb_true_iff in S as [S1 S2]. rewrite S1. cbn. apply IH; assumption.
Qed.
Lemma starts_with_app p r : starts_with p (p ++ r) = true.
Proof. induction p as [|x p IH]; cbn; [reflexivity|]. rewrite Ascii.eqb_refl. exact IH. Qed.
Lemma starts_with_weaken p a b : starts_with p a = true -> starts_with p (a ++ b) = true.
Proof.
  revert a. induction p as [|x p IH]; intros [|y a] H; cbn in *; try reflexivity; try discriminate.
  apply andb_true_iff in H as [-> H]. cbn. apply IH, H.
Qed.
Lemma contains_starts p s : starts_with p s = true -> contains p s = true.
Proof. intro H. destruct s; cbn [contains]; rewrite H; reflexivity. Qed.
Lemma contains_app_r p a b : contains p b = true -> contains p (a ++ b) = true.
Proof. intro H. induction a as [|x a IH]; cbn; [exact H|]. rewrite IH. apply orb_true_r. Qed.
Lemma contains_mid p a r : contains p (a ++ p ++ r) = true.
Proof. apply contains_app_r, contains_starts, starts_with_app. Qed.
Lemma before_first p a r :
  p <> "" -> has_char "_"%char p = false -> contains p a = false ->
  before p (a ++ "_" ++ p ++ r) = (a ++ "_")%string.
Proof.
  intros NE NC. induction a as [|x a IH]; intro H.
  - cbn [append]. cbn [before]. destruct p as [|y p]; [contradiction|]. cbn in NC. apply orb_false_iff in NC as [N1 N2].
    cbn [starts_with]. rewrite N1. cbn [andb append].
    assert (S : before (String y p) (String y (p ++ r)) = "").
    { cbn [before]. change (String y (p ++ r)) with (String y p ++ r)%string. rewrite starts_with_app. reflexivity. }
    rewrite S. reflexivity.
  - cbn in H. apply orb_false_iff in H as [H1 H2]. cbn [append before].
    destruct (starts_with p (String x (a ++ String "_"%char (p ++ r)))) eqn:S.
    + exfalso. change (String x (a ++ String "_"%char (p ++ r))) with ((String x a) ++ String "_"%char (p ++ r))%string in S.
      apply starts_with_nochar in S; [|exact NC]. congruence.
    + f_equal. apply IH, H2.
Qed.
Definition give (s : spectra) (b : string) : spectra * res string := (with_bg s (Some b), Ok b).
Definition no_bg (s : spectra) : Prop := s_bg s = None \/ s_bg s = Some "".
Lemma name_set_l s b : b <> "" -> s_bg s = Some b -> get_background_name s = (s, Ok b).
Proof. intros N E. unfold get_background_name. rewrite E. destruct b; [contradiction|reflexivity]. Qed.
Lemma name_unfold s :
  no_bg s -> get_background_name s =
    if contains "mc" (s_name s) then give s (drop_last 1 (before "mc" (s_name s)))
    else if contains "mix" (s_name s) then give s (drop_last 1 (before "mix" (s_name s)))
    else if contains "reco" (s_name s) then give s (drop_last 1 (before "reco" (s_name s)))
    else (s, Err EValueError).
Proof. intros [E|E]; unfold get_background_name; rewrite E; reflexivity. Qed.
Lemma drop1 a : drop_last 1 (a ++ "_") = a. Proof. apply drop_last_app. reflexivity. Qed.
Lemma name_mc_l s bg rest :
  no_bg s -> s_name s = (bg ++ "_" ++ "mc" ++ rest)%string -> contains "mc" bg = false ->
  snd (get_background_name s) = Ok bg.
Proof.
  intros E N C. rewrite name_unfold by exact E. rewrite N at 1.
  change (bg ++ "_" ++ "mc" ++ rest)%string with (bg ++ String "_" ("mc" ++ rest))%string.
  replace (bg ++ String "_" ("mc" ++ rest))%string with ((bg ++ "_") ++ "mc" ++ rest)%string by (rewrite sapp_assoc; reflexivity).
  rewrite contains_mid. rewrite N, before_first by (discriminate || reflexivity || exact C). rewrite drop1. reflexivity.
Qed.
Lemma name_mix_l s bg rest :
  no_bg s -> s_name s = (bg ++ "_" ++ "mix" ++ rest)%string -> contains "mc" (s_name s) = false -> contains "mix" bg = false ->
  snd (get_background_name s) = Ok bg.
Proof.
  intros E N M C. rewrite name_unfold by exact E. rewrite M. rewrite N at 1.
  replace (bg ++ "_" ++ "mix" ++ rest)%string with ((bg ++ "_") ++ "mix" ++ rest)%string by (rewrite sapp_assoc; reflexivity).
  rewrite contains_mid. rewrite N, before_first by (discriminate || reflexivity || exact C). rewrite drop1. reflexivity.
Qed.
Lemma name_reco_l s bg rest :
  no_bg s -> s_name s = (bg ++ "_" ++ "reco" ++ rest)%string -> contains "mc" (s_name s) = false ->
  contains "mix" (s_name s) = false -> contains "reco" bg = false ->
  snd (get_background_name s) = Ok bg.
Proof.
  intros E N M X C. rewrite name_unfold by exact E. rewrite M, X. rewrite N at 1.
  replace (bg ++ "_" ++ "reco" ++ rest)%string with ((bg ++ "_") ++ "reco" ++ rest)%string by (rewrite sapp_assoc; reflexivity).
  rewrite contains_mid. rewrite N, before_first by (discriminate || reflexivity || exact C). rewrite drop1. reflexivity.
Qed.
Lemma name_again s x :
  no_bg s -> snd (get_background_name s) = Ok x -> snd (get_background_name (with_bg s (Some x))) = Ok x.
Proof.
  intros E H. destruct x as [|a b]; [|reflexivity].
  rewrite name_unfold in * by (try exact E; right; reflexivity). cbn [s_name with_bg].
  destruct (contains "mc" (s_name s)); [exact H|]. destruct (contains "mix" (s_name s)); [exact H|].
  destruct (contains "reco" (s_name s)); [exact H|discriminate].
Qed.
Lemma name_stable_l s :
  snd (get_background_name (fst (get_background_name s))) = snd (get_background_name s) /\
  s_name (fst (get_background_name s)) = s_name s /\ s_data (fst (get_background_name s)) = s_data s /\
  s_cfg (fst (get_background_name s)) = s_cfg s /\ s_decays (fst (get_background_name s)) = s_decays s.
Proof.
  assert (A : no_bg s -> fst (get_background_name s) = s \/
              exists x, snd (get_background_name s) = Ok x /\ fst (get_background_name s) = with_bg s (Some x)).
  { intro E. rewrite name_unfold by exact E.
    destruct (contains "mc" (s_name s)); [right; eexists; split; reflexivity|].
    destruct (contains "mix" (s_name s)); [right; eexists; split; reflexivity|].
    destruct (contains "reco" (s_name s)); [right; eexists; split; reflexivity|]. left. reflexivity. }
  assert (B : no_bg s \/ exists a b, s_bg s = Some (String a b)).
  { destruct (s_bg s) as [[|a b]|] eqn:E; [left; right; exact E|right; eauto|left; left; exact E]. }
  destruct B as [B|(a & b & B)].
  - destruct (A B) as [E|(x & E1 & E2)].
    + rewrite !E. repeat split.
    + rewrite E2, E1. split; [apply name_again; assumption|repeat split].
  - assert (H : get_background_name s = (s, Ok (String a b))) by (apply name_set_l; [discriminate|exact B]).
    rewrite H. cbn [fst snd]. rewrite H. repeat split.
Qed.
Lemma name_error_l s :
  snd (get_background_name s) = Err EValueError <->
  (s_bg s = None \/ s_bg s = Some "") /\ contains "mc" (s_name s) = false /\ contains "mix" (s_name s) = false /\ contains "reco" (s_name s) = false.
Proof.
  split.
  - intro H. destruct (s_bg s) as [[|a b]|] eqn:E.
    2: { rewrite (name_set_l s (String a b)) in H by (discriminate || exact E). discriminate. }
    all: rewrite name_unfold in H by (unfold no_bg; rewrite E; auto); split; [auto|];
      destruct (contains "mc" (s_name s)); [discriminate|]; destruct (contains "mix" (s_name s)); [discriminate|];
      destruct (contains "reco" (s_name s)); [discriminate|]; auto.
  - intros (E & H1 & H2 & H3). rewrite name_unfold by exact E. rewrite H1, H2, H3. reflexivity.
Qed.
Lemma name_refuted_l :
  exists s bg, s_bg s = None /\ s_name s = (bg ++ "_mix_mcfit")%string /\ snd (get_background_name s) <> Ok bg.
Proof.
  exists (Spec "Bi210_mix_mcfit" None [] (azeros []) 1 0 0 []), "Bi210". repeat split. vm_compute. discriminate.
Qed.

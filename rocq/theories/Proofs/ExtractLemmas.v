From Coq Require Import Reals Lra Psatz.
From Verif Require Import Model.Base Model.DSExtract Spec.ExtractSpec.
Local Open Scope R_scope.

Lemma dist2_nonneg p : 0 <= dist2 p.
Proof. unfold dist2. nra. Qed.
Lemma mag_dist p : mag p = sqrt (dist2 p).
Proof.
  unfold mag, dist2. rewrite Rabs_right by (apply Rle_ge, sqrt_pos). f_equal. ring.
Qed.
Lemma mag_nonneg p : 0 <= mag p.
Proof. rewrite mag_dist. apply sqrt_pos. Qed.
Lemma mag_sq p : mag p * mag p = dist2 p.
Proof. rewrite mag_dist. apply sqrt_sqrt, dist2_nonneg. Qed.
Lemma mag_within p r : mag p < r <-> within r p.
Proof.
  unfold within. pose proof (mag_nonneg p). pose proof (mag_sq p). split.
  - intro L. split; [lra|]. nra.
  - intros [P L]. destruct (Rlt_dec (mag p) r) as [|N]; [assumption|]. exfalso. nra.
Qed.
Lemma Rltb_iff a b : Rltb a b = true <-> a < b.
Proof. unfold Rltb. destruct (Rlt_dec a b); split; intro; try assumption; try reflexivity; try discriminate; contradiction. Qed.
Lemma Rltb_within p r : Rltb (mag p) r = true <-> within r p.
Proof. rewrite Rltb_iff. apply mag_within. Qed.
Lemma truthy_nz r : r <> 0 -> truthy (Some r) = Some r.
Proof. intro H. unfold truthy. destruct (Req_EM_T r 0); [contradiction|reflexivity]. Qed.
Lemma truthy_0 : truthy (Some 0) = None.
Proof. unfold truthy. destruct (Req_EM_T 0 0); [reflexivity|congruence]. Qed.

Ltac fv := rewrite ?truthy_nz by assumption; cbn.

Lemma energy_reco_l r ext outer e : r <> 0 ->
  exists x, function_factory "energy_reco" (Some r) ext outer = Ok x /\ x_name x = "energy_reco"%string /\
    value_ntuple x e = n_energy e /\
    (valid_ntuple x e = true <-> n_scintFit e = 1%Z /\ 0 < n_energy e /\ within r (n_pos e)).
Proof.
  intro H. eexists. split; [cbn; rewrite andb_false_r; reflexivity|]. split; [reflexivity|]. split; [reflexivity|].
  unfold valid_ntuple. cbn [x_fv x_kind]. fv. rewrite <- Rltb_within, <- Rltb_iff, <- Z.eqb_eq.
  destruct (Z.eqb _ _), (Rltb 0 _); cbn; intuition congruence.
Qed.
Lemma radial_reco_l dim r ext outer e : dim = "radial_reco"%string \/ dim = "radial3_reco"%string -> r <> 0 ->
  exists x, function_factory dim (Some r) ext outer = Ok x /\ x_name x = dim /\
    (valid_ntuple x e = true <-> n_scintFit e = 1%Z /\ within r (n_pos e)).
Proof.
  intros [-> | ->] H; eexists; (split; [cbn; rewrite andb_false_r; reflexivity|]); (split; [reflexivity|]);
  unfold valid_ntuple; cbn [x_fv x_kind]; fv; rewrite <- Rltb_within, <- Z.eqb_eq; destruct (Z.eqb _ _); cbn; intuition congruence.
Qed.
Lemma mc_l dim r outer e :
  In dim ["energy_mc"; "energy_truth"; "radial_mc"; "radial3_mc"]%string -> r <> 0 ->
  exists x, function_factory dim (Some r) false outer = Ok x /\ x_name x = dim /\
    (valid_ntuple x e = true <-> n_mc e = 1%Z /\ within r (n_mcPos e)).
Proof.
  intros [<-|[<-|[<-|[<-|[]]]]] H; eexists; (split; [reflexivity|]); (split; [reflexivity|]);
  unfold valid_ntuple; cbn [x_fv x_kind x_ext]; fv; rewrite <- Rltb_within, <- Z.eqb_eq; destruct (Z.eqb _ _); cbn; intuition congruence.
Qed.
Lemma external_energy_l dim r outer e :
  In dim ["energy_mc"; "energy_truth"]%string -> r <> 0 ->
  exists x, function_factory dim (Some r) true outer = Ok x /\ x_name x = dim /\
    (valid_ntuple x e = true <-> n_mc e = 1%Z /\ n_scintFit e = 1%Z /\ within r (n_pos e)).
Proof.
  intros [<-|[<-|[]]] H; eexists; (split; [reflexivity|]); (split; [reflexivity|]);
  unfold valid_ntuple; cbn [x_fv x_kind x_ext]; fv; unfold fv_cut_ntuple; cbn; rewrite <- Rltb_within, <- !Z.eqb_eq;
  destruct (Z.eqb (n_scintFit e) 1), (Z.eqb (n_mc e) 1); cbn; intuition congruence.
Qed.
Lemma no_radius_l dim ext outer x e : function_factory dim None ext outer = Ok x ->
  forall x0, function_factory dim (Some 0) ext outer = Ok x0 -> valid_ntuple x0 e = valid_ntuple x e.
Proof.
  unfold function_factory, mk_dsx.
  repeat match goal with |- context [if ?b then _ else _] => destruct b end; intro E; try discriminate; injection E as <-;
  intros x0 E0; try discriminate; injection E0 as <-; unfold valid_ntuple; cbn [x_fv x_kind x_ext]; rewrite ?truthy_0; reflexivity.
Qed.
Lemma no_cut_l e outer :
  (forall dim, In dim ["energy_mc"; "energy_truth"; "radial_mc"; "radial3_mc"]%string ->
    exists x, function_factory dim None false outer = Ok x /\ (valid_ntuple x e = true <-> n_mc e = 1%Z)) /\
  (forall ext, exists x, function_factory "energy_reco" None ext outer = Ok x /\
     (valid_ntuple x e = true <-> n_scintFit e = 1%Z /\ 0 < n_energy e)) /\
  (forall ext dim, In dim ["radial_reco"; "radial3_reco"]%string ->
     exists x, function_factory dim None ext outer = Ok x /\ (valid_ntuple x e = true <-> n_scintFit e = 1%Z)).
Proof.
  split; [|split].
  - intros dim [<-|[<-|[<-|[<-|[]]]]]; eexists; (split; [reflexivity|]); unfold valid_ntuple; cbn;
    rewrite <- Z.eqb_eq; destruct (Z.eqb _ _); intuition congruence.
  - intro ext. eexists. split; [cbn; rewrite andb_false_r; reflexivity|]. unfold valid_ntuple; cbn.
    rewrite <- Rltb_iff, <- Z.eqb_eq. destruct (Z.eqb _ _), (Rltb _ _); cbn; intuition congruence.
  - intros ext dim [<-|[<-|[]]]; eexists; (split; [cbn; rewrite andb_false_r; reflexivity|]); unfold valid_ntuple; cbn;
    rewrite <- Z.eqb_eq; destruct (Z.eqb _ _); intuition congruence.
Qed.
Lemma zradial_l dim fv ext outer : dim = "zradial3_mc"%string \/ dim = "zradial3_reco"%string ->
  function_factory dim fv ext outer = Err ETypeError.
Proof. intros [-> | ->]; reflexivity. Qed.
Lemma external_radial_l dim fv outer : dim = "radial_mc"%string \/ dim = "radial3_mc"%string ->
  function_factory dim fv true outer = Err EValueError.
Proof. intros [-> | ->]; reflexivity. Qed.
Lemma unknown_dim_l dim fv ext outer :
  ~ In dim ["energy_mc"; "energy_reco"; "energy_truth"; "radial_mc"; "radial_reco"; "radial3_mc"; "radial3_reco";
            "zradial3_mc"; "zradial3_reco"]%string ->
  function_factory dim fv ext outer = Err EIndexError.
Proof.
  intro H. cbn in H. unfold function_factory.
  repeat match goal with |- context [String.eqb dim ?s] => destruct (String.eqb_spec dim s); [exfalso; subst; tauto|] end.
  reflexivity.
Qed.

Lemma radial3_l dim outer fv e : dim = "radial3_mc"%string \/ dim = "radial3_reco"%string -> 0 < outer ->
  exists x, function_factory dim fv false (Some outer) = Ok x /\
    let p := fun e => if String.eqb dim "radial3_mc" then n_mcPos e else n_pos e in
    0 <= value_ntuple x e /\
    (within outer (p e) <-> value_ntuple x e < 1) /\
    (forall e', dist2 (p e) < dist2 (p e') <-> value_ntuple x e < value_ntuple x e').
Proof.
  intros Hd Ho.
  assert (To : truthy (Some outer) = Some outer) by (apply truthy_nz; lra).
  assert (G : forall p, 0 <= (mag p / outer) ^ 3 /\ (within outer p <-> (mag p / outer) ^ 3 < 1) /\
     forall p', dist2 p < dist2 p' <-> (mag p / outer) ^ 3 < (mag p' / outer) ^ 3).
  { intro p. pose proof (mag_nonneg p) as M. set (t := mag p / outer).
    assert (T : 0 <= t) by (unfold t; apply Rmult_le_pos; [assumption|left; apply Rinv_0_lt_compat; lra]).
    assert (Et : mag p = t * outer) by (unfold t; field; lra).
    assert (C : forall a b, 0 <= a -> 0 <= b -> (a ^ 3 < b ^ 3 <-> a < b)).
    { intros a b Ha Hb. split; intro L.
      - destruct (Rlt_dec a b) as [|N]; [assumption|]. exfalso. apply Rnot_lt_le in N.
        assert (b ^ 3 <= a ^ 3) by (apply pow_incr; lra). lra.
      - assert (0 < b * b) by nra. assert (a * a <= b * b) by nra.
        assert (a * (a * a) <= a * (b * b)) by (apply Rmult_le_compat_l; lra).
        assert (a * (b * b) < b * (b * b)) by (apply Rmult_lt_compat_r; lra).
        replace (a ^ 3) with (a * (a * a)) by ring. replace (b ^ 3) with (b * (b * b)) by ring. lra. }
    split; [apply pow_le, T|]. split.
    - replace 1 with (1 ^ 3) at 1 by ring. rewrite (C t 1 T) by lra. rewrite <- mag_within, Et. split; intro; nra.
    - intro p'. pose proof (mag_nonneg p') as M'. set (t' := mag p' / outer).
      assert (T' : 0 <= t') by (unfold t'; apply Rmult_le_pos; [assumption|left; apply Rinv_0_lt_compat; lra]).
      assert (Et' : mag p' = t' * outer) by (unfold t'; field; lra).
      rewrite (C t t' T T'). rewrite <- !mag_sq, Et, Et'. split; intro L.
      + destruct (Rlt_dec t t') as [|N]; [assumption|]. exfalso. apply Rnot_lt_le in N.
        assert (t' * outer <= t * outer) by (apply Rmult_le_compat_r; lra). assert (0 <= t' * outer) by (apply Rmult_le_pos; lra). nra.
      + assert (t * t < t' * t') by nra. assert (0 < outer * outer) by nra. nra. }
  destruct Hd as [-> | ->].
  - exists (DSX Radial3MC fv false false outer). split; [unfold function_factory; cbn [String.eqb Ascii.eqb Bool.eqb]; unfold mk_dsx; rewrite To; reflexivity|].
    destruct (G (n_mcPos e)) as (A & B & C). split; [exact A|]. split; [exact B|]. intro e'. apply C.
  - exists (DSX Radial3Reco fv false false outer). split; [unfold function_factory; cbn [String.eqb Ascii.eqb Bool.eqb]; unfold mk_dsx; rewrite To; reflexivity|].
    destruct (G (n_pos e)) as (A & B & C). split; [exact A|]. split; [exact B|]. intro e'. apply C.
Qed.

(** ROOT *)
Lemma root_mc_l dim r outer d :
  In dim ["energy_mc"; "energy_truth"; "radial_mc"; "radial3_mc"]%string -> r <> 0 ->
  exists x, function_factory dim (Some r) false outer = Ok x /\
    exists b, valid_root_mc x d = Ok b /\ (b = true <-> within r (m_pos (d_mc d))).
Proof.
  intros [<-|[<-|[<-|[<-|[]]]]] H; eexists; (split; [reflexivity|]); eexists; (split;
  [unfold valid_root_mc; cbn [x_fv]; fv; reflexivity|apply Rltb_within]).
Qed.
Lemma root_ev_l dim r ext outer d ev :
  In dim ["energy_reco"; "radial_reco"; "radial3_reco"]%string -> r <> 0 ->
  exists x, function_factory dim (Some r) ext outer = Ok x /\
    (valid_root_ev x d ev = true <->
     e_fit ev = true /\ (if String.eqb dim "radial_reco" then e_hasP ev && e_validP ev else e_hasE ev && e_validE ev) = true /\
     within r (e_pos ev)).
Proof.
  intros [<-|[<-|[<-|[]]]] H; eexists; (split; [cbn; rewrite andb_false_r; reflexivity|]);
  unfold valid_root_ev; cbn [x_fv x_kind]; fv; unfold fv_cut_root_ev; cbn; rewrite <- Rltb_within; destruct (e_fit ev); cbn;
  try (destruct (e_hasE ev && e_validE ev)); try (destruct (e_hasP ev && e_validP ev)); intuition congruence.
Qed.
Lemma root_external_l dim r outer d :
  In dim ["energy_mc"; "energy_truth"]%string -> r <> 0 ->
  exists x, function_factory dim (Some r) true outer = Ok x /\
    match d_evs d with
    | [ev] => exists b, valid_root_mc x d = Ok b /\ (b = true <-> within r (e_pos ev))
    | _ => valid_root_mc x d = Err EValueError
    end.
Proof.
  intros [<-|[<-|[]]] H; eexists; (split; [reflexivity|]); unfold valid_root_mc; cbn [x_fv]; fv; unfold fv_cut_root_mc; cbn;
  destruct (d_evs d) as [|ev [|ev' l]]; try reflexivity; eexists; (split; [reflexivity|apply Rltb_within]).
Qed.
Lemma root_external_nofv_l dim outer d :
  In dim ["energy_mc"; "energy_truth"]%string ->
  exists x, function_factory dim None true outer = Ok x /\ valid_root_mc x d = Ok true.
Proof. intros [<-|[<-|[]]]; eexists; split; reflexivity. Qed.

Lemma outer_of k fv ext other outer x : mk_dsx k fv ext other outer = Ok x -> x_kind x = k /\ x_outer x = outer_used outer.
Proof.
  assert (O : match truthy outer with Some r => r | None => av_radius end = outer_used outer).
  { unfold outer_used, truthy, av_radius. destruct outer as [r|]; [|reflexivity]. destruct (Req_EM_T r 0); reflexivity. }
  unfold mk_dsx. rewrite O. destruct k, ext, other; cbn; intro H; try discriminate; injection H as <-; split; reflexivity.
Qed.
Lemma values_l dim fv ext outer x : function_factory dim fv ext outer = Ok x ->
  (forall e, In (dim, value_ntuple x e)
     [("energy_mc"%string, n_mcEdepQuenched e); ("energy_reco"%string, n_energy e); ("energy_truth"%string, n_mcEdep e);
      ("radial_mc"%string, distance (n_mcPos e)); ("radial_reco"%string, distance (n_pos e));
      ("radial3_mc"%string, (distance (n_mcPos e) / outer_used outer) ^ 3); ("radial3_reco"%string, (distance (n_pos e) / outer_used outer) ^ 3)]) /\
  (forall m, is_reco_kind (x_kind x) = false -> In (dim, value_root_mc x m)
     [("energy_mc"%string, m_quenched m); ("energy_truth"%string, m_edep m); ("radial_mc"%string, distance (m_pos m));
      ("radial3_mc"%string, (distance (m_pos m) / outer_used outer) ^ 3)]) /\
  (forall ev, is_reco_kind (x_kind x) = true -> exists v, value_root_ev x ev = Ok v /\
     In (dim, v) [("energy_reco"%string, e_energy ev); ("radial_reco"%string, distance (e_pos ev)); ("radial3_reco"%string, (distance (e_pos ev) / outer_used outer) ^ 3)]).
Proof.
  unfold function_factory, distance.
  repeat match goal with |- context [String.eqb dim ?d] => destruct (String.eqb_spec dim d) as [->|_] end; intro H; try discriminate;
    apply outer_of in H as [K O]; unfold value_ntuple, value_root_mc, value_root_ev; rewrite K; try rewrite O;
    (split; [intro e|split; [intros m Q|intros ev Q]; try discriminate Q]); rewrite ?mag_dist; try (cbn; tauto); try (eexists; split; [reflexivity|]; rewrite ?mag_dist; cbn; tauto).
Qed.

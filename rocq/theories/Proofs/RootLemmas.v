From Coq Require Import Lia Setoid.
From Verif Require Import Model.Base Model.PyStr Model.NDArray Model.Param Model.Config Model.Spectra Model.FillSpectrum.
From Verif Require Import Spec.AxisSpec Spec.ArraySpec Spec.SpectraSpec Spec.EventSpec.
From Verif Require Import Proofs.QcLemmas Proofs.NDArrayLemmas Proofs.ParamLemmas Proofs.DictLemmas Proofs.FillLemmas Proofs.EventLemmas.

Section Root.
Variables D V : Type.
Variable evs : D -> list V.
Variable c : sconfig.
Variable valid : string -> D * option V -> bool.
Variable value : string -> D * option V -> Qc.
Variable xs : list (string * extractor (D * option V)).
Hypothesis RX : reads valid value (map snd xs) (map fst c).
Hypothesis KX : map fst xs = map fst c.
Variable bipo : bool.

Notation MCP := (usable c (of_entry valid) (of_entry value)).
Notation EVP := (usable c (of_trigger valid) (of_trigger value)).

Lemma single_cons d ds : single_ev evs bipo (d :: ds) =
  if bipo && negb (Nat.eqb (length (evs d)) 1) then single_ev evs bipo ds else d :: single_ev evs bipo ds.
Proof. unfold single_ev. destruct bipo; cbn; [|reflexivity]. destruct (Nat.eqb _ _); reflexivity. Qed.

Lemma lies_ext {E F} (f : string -> E -> Qc) (g : string -> F -> Qc) e e' (c' : sconfig) idx :
  (forall v, In v (map fst c') -> f v e = g v e') -> lies_in c' f e idx = lies_in c' g e' idx.
Proof.
  revert idx. induction c' as [|[v p] c' IH]; intros [|i idx] H; cbn [lies_in]; try reflexivity.
  rewrite (H v) by (left; reflexivity). rewrite IH; [reflexivity|]. intros w Hw. apply H. right. exact Hw.
Qed.
Lemma usable_ext {E F} fv (f : string -> E -> Qc) gv (g : string -> F -> Qc) e e' (c' : sconfig) :
  (forall v, In v (map fst c') -> fv v e = gv v e' /\ f v e = g v e') -> usable c' fv f e = usable c' gv g e'.
Proof.
  unfold usable. induction c' as [|[v p] c' IH]; intro H; cbn [forallb fst snd]; [reflexivity|].
  destruct (H v (or_introl eq_refl)) as [-> ->]. rewrite IH; [reflexivity|]. intros w Hw. apply H. right. exact Hw.
Qed.
Lemma counts_single {E F} (P : E -> bool) (f : string -> E -> Qc) (Q : F -> bool) (g : string -> F -> Qc) e e' s s' :
  P e = Q e' -> (forall v, In v (map fst (s_cfg s)) -> f v e = g v e') ->
  counts P f [e] s s' -> counts Q g [e'] s s'.
Proof.
  intros H1 H2. apply counts_ext; unfold count; cbn.
  - rewrite H1. destruct (Q e'); reflexivity.
  - intro idx. rewrite H1, (lies_ext f g e e' _ idx H2). destruct (_ && _); reflexivity.
Qed.

(** one event through [extract] and [try_fill] *)
Lemma one_event (arg : D * option V) s :
  wf_spectra s -> s_cfg s = c ->
  exists kw b, extract (map snd xs) arg [] = Ok (kw, b) /\
    exists s', (if b then try_fill kw s else (s, None)) = (s', None) /\
    counts (usable c valid value) value [arg] s s'.
Proof.
  intros W Ec. assert (ND : NoDup (map fst c)) by (rewrite <- Ec; apply W).
  destruct (extract_reads valid value (map snd xs) (map fst c) arg [] RX ND) as (kw & Ek & K & _ & A).
  exists kw. eexists. split; [exact Ek|]. rewrite forallb_fst in *. pose proof (usable_split c valid value arg) as U.
  destruct (forallb _ c) eqn:Va.
  - apply try_fill_counts; [exact W| |rewrite Ec; exact U]. rewrite Ec.
    split; [intros k Hk; apply K in Hk as [Hk|Hk]; [exact Hk|destruct Hk]|]. intros v Hv. apply A; [reflexivity|exact Hv].
  - exists s. split; [reflexivity|]. apply counts_skip, U.
Qed.

Lemma root_mc_counts ds s :
  wf_spectra s -> s_cfg s = c ->
  exists s', root_mc evs xs bipo ds s = (s', None) /\ counts MCP (of_entry value) (single_ev evs bipo ds) s s'.
Proof.
  revert s. induction ds as [|d ds IH]; intros s W Ec.
  - exists s. split; [reflexivity|]. unfold single_ev. destruct bipo; apply counts_nil.
  - cbn [root_mc]. rewrite single_cons. destruct (bipo && _); [apply IH; assumption|].
    destruct (one_event (d, None) s W Ec) as (kw & b & Ek & s1 & E1 & C1). rewrite Ek.
    assert (C1' : counts MCP (of_entry value) [d] s s1) by (revert C1; apply counts_single; reflexivity).
    destruct (IH s1) as (s2 & E2 & C2); [eapply counts_wf; eassumption|destruct C1 as (_ & _ & C1 & _); congruence|].
    exists s2. change (d :: single_ev evs bipo ds) with ([d] ++ single_ev evs bipo ds). split; [|eapply counts_app; eassumption].
    destruct b; [rewrite E1; exact E2|]. injection E1 as <-. exact E2.
Qed.

Hypothesis allreco : forall v, In v (map fst c) -> is_reco v = true.
Lemma ev_loop_counts d vs s :
  wf_spectra s -> s_cfg s = c ->
  exists s', ev_loop xs d vs s = (s', None) /\ counts EVP (of_trigger value) (map (fun v => (d, v)) vs) s s'.
Proof.
  revert s. induction vs as [|v vs IH]; intros s W Ec.
  - exists s. split; [reflexivity|apply counts_nil].
  - cbn [ev_loop map]. destruct (one_event (d, Some v) s W Ec) as (kw & b & Ek & s1 & E1 & C1). rewrite Ek.
    assert (C1' : counts EVP (of_trigger value) [(d, v)] s s1).
    { revert C1. apply counts_single.
      - apply usable_ext. intros w Hw. unfold of_trigger. apply allreco in Hw. unfold is_reco in Hw. rewrite Hw. split; reflexivity.
      - intros w Hw. rewrite Ec in Hw. unfold of_trigger. apply allreco in Hw. unfold is_reco in Hw. rewrite Hw. reflexivity. }
    destruct (IH s1) as (s2 & E2 & C2); [eapply counts_wf; eassumption|destruct C1 as (_ & _ & C1 & _); congruence|].
    exists s2. change ((d, v) :: map (fun v => (d, v)) vs) with ([(d, v)] ++ map (fun v => (d, v)) vs).
    split; [|eapply counts_app; eassumption]. destruct b; [rewrite E1; exact E2|]. injection E1 as <-. exact E2.
Qed.
Lemma root_ev_counts ds s :
  wf_spectra s -> s_cfg s = c ->
  exists s', root_ev evs xs bipo ds s = (s', None) /\
    counts EVP (of_trigger value) (triggers evs (single_ev evs bipo ds)) s s'.
Proof.
  revert s. induction ds as [|d ds IH]; intros s W Ec.
  - exists s. split; [reflexivity|]. unfold single_ev. destruct bipo; apply counts_nil.
  - cbn [root_ev]. rewrite single_cons. destruct (bipo && _); [apply IH; assumption|].
    destruct (ev_loop_counts d (evs d) s W Ec) as (s1 & E1 & C1). rewrite E1.
    destruct (IH s1) as (s2 & E2 & C2); [eapply counts_wf; eassumption|destruct C1 as (_ & _ & C1 & _); congruence|].
    exists s2. split; [exact E2|]. unfold triggers. cbn [flat_map]. eapply counts_app; eassumption.
Qed.
End Root.

Section Mix.
Variables D V : Type.
Variable evs : D -> list V.
Variable c : sconfig.
Variable valid : string -> D * option V -> bool.
Variable value : string -> D * option V -> Qc.
Variable bipo : bool.

Lemma extract_mix_reads xs vs (d : D) (v : V) kw :
  reads valid value (map snd xs) vs -> map fst xs = vs -> NoDup vs ->
  exists kw', extract_mix xs d v kw = Ok (kw', forallb (fun w => of_trigger valid w (d, v)) vs) /\
    (forall k, In k (map fst kw') -> In k vs \/ In k (map fst kw)) /\
    (forall k, ~ In k vs -> dget k kw' = dget k kw) /\
    (forallb (fun w => of_trigger valid w (d, v)) vs = true -> forall w, In w vs -> dget w kw' = Some (of_trigger value w (d, v))).
Proof.
  intros R. revert vs R kw. induction xs as [|[var x] xs IH]; intros vs R kw K ND.
  - cbn in K. subst vs. exists kw. cbn. repeat split; try tauto.
  - cbn in K. subst vs. cbn [map snd] in R. inversion R as [|? ? ? ? (N & G) R']; subst.
    inversion ND as [|? ? Nv ND']; subst. cbn [extract_mix forallb].
    set (arg := if String.eqb (var_type (ex_name x)) "reco" then (d, Some v) else (d, None)).
    assert (A1 : of_trigger valid (ex_name x) (d, v) = valid (ex_name x) arg) by reflexivity.
    assert (A2 : of_trigger value (ex_name x) (d, v) = value (ex_name x) arg) by reflexivity.
    destruct (G arg) as [G1 G2]. rewrite G1, G2. cbn [rbind]. rewrite A1.
    destruct (valid (ex_name x) arg) eqn:Va; cbn [andb].
    + destruct (IH (map fst xs) R' (dset (ex_name x) (value (ex_name x) arg) kw) eq_refl ND') as (kw' & E1 & K & O & A).
      exists kw'. split; [exact E1|]. split; [|split].
      * intros k Hk. apply K in Hk as [Hk|Hk]; [left; right; exact Hk|].
        apply dset_in in Hk as [->|Hk]; [left; left; reflexivity|right; exact Hk].
      * intros k Hk. rewrite O by (intro; apply Hk; right; assumption).
        apply dget_dset_other. intro; subst; apply Hk; left; reflexivity.
      * intros B w [<-|Hw]; [|apply A; assumption]. rewrite O by exact Nv. rewrite A2. apply dget_dset_same.
    + exists kw. split; [reflexivity|]. split; [tauto|]. split; [reflexivity|discriminate].
Qed.

Variable xs : list (string * extractor (D * option V)).
Hypothesis RX : reads valid value (map snd xs) (map fst c).
Hypothesis KX : map fst xs = map fst c.
Notation EVP := (usable c (of_trigger valid) (of_trigger value)).

Lemma mix_loop_counts d vs kw s :
  wf_spectra s -> s_cfg s = c -> (forall k, In k (map fst kw) -> In k (map fst c)) ->
  exists s', mix_loop xs d vs kw s = (s', None) /\ counts EVP (of_trigger value) (map (fun v => (d, v)) vs) s s'.
Proof.
  revert kw s. induction vs as [|v vs IH]; intros kw s W Ec Hk.
  - exists s. split; [reflexivity|apply counts_nil].
  - cbn [mix_loop map]. assert (ND : NoDup (map fst c)) by (rewrite <- Ec; apply W).
    destruct (extract_mix_reads xs (map fst c) d v kw RX KX ND) as (kw' & Ek & K & _ & A). rewrite Ek.
    assert (Hk' : forall k, In k (map fst kw') -> In k (map fst c)) by (intros k H; apply K in H as [H|H]; auto).
    rewrite forallb_fst in *. pose proof (usable_split c (of_trigger valid) (of_trigger value) (d, v)) as U.
    assert (S1 : exists s1, (if forallb (fun vp : string * spar => of_trigger valid (fst vp) (d, v)) c then try_fill kw' s else (s, None)) = (s1, None) /\
       counts EVP (of_trigger value) [(d, v)] s s1).
    { destruct (forallb _ c) eqn:Va.
      - apply try_fill_counts; [exact W| |rewrite Ec; exact U]. rewrite Ec. split; [exact Hk'|].
        intros w Hw. apply A; [reflexivity|exact Hw].
      - exists s. split; [reflexivity|]. apply counts_skip, U. }
    destruct S1 as (s1 & E1 & C1).
    destruct (IH kw' s1) as (s2 & E2 & C2); [eapply counts_wf; eassumption|destruct C1 as (_ & _ & C1 & _); congruence|exact Hk'|].
    exists s2. change ((d, v) :: map (fun v => (d, v)) vs) with ([(d, v)] ++ map (fun v => (d, v)) vs).
    split; [|eapply counts_app; eassumption]. destruct (forallb _ c); [rewrite E1; exact E2|]. injection E1 as <-. exact E2.
Qed.
Lemma root_mix_counts ds s :
  wf_spectra s -> s_cfg s = c ->
  exists s', root_mix evs xs bipo ds s = (s', None) /\
    counts EVP (of_trigger value) (triggers evs (single_ev evs bipo ds)) s s'.
Proof.
  revert s. induction ds as [|d ds IH]; intros s W Ec.
  - exists s. split; [reflexivity|]. unfold single_ev. destruct bipo; apply counts_nil.
  - cbn [root_mix]. rewrite single_cons. destruct (bipo && _); [apply IH; assumption|].
    destruct (mix_loop_counts d (evs d) [] s W Ec) as (s1 & E1 & C1); [intros k []|]. rewrite E1.
    destruct (IH s1) as (s2 & E2 & C2); [eapply counts_wf; eassumption|destruct C1 as (_ & _ & C1 & _); congruence|].
    exists s2. split; [exact E2|]. unfold triggers. cbn [flat_map]. eapply counts_app; eassumption.
Qed.
End Mix.

Lemma root_extractors_ok {E} c0 factory valid (value : string -> E -> Qc) vars mc ev :
  extracts c0 factory valid value -> incl vars (map fst c0) ->
  (forall v, In v vars -> is_mc v = true \/ is_reco v = true) ->
  exists xs, root_extractors factory vars mc ev =
      Ok (xs, mc || existsb is_mc vars, ev || existsb is_reco vars) /\
    map fst xs = vars /\ reads valid value (map snd xs) vars.
Proof.
  intros X I T. revert mc ev. induction vars as [|v vars IH]; intros mc ev.
  - exists []. cbn. rewrite !orb_false_r. repeat split; try reflexivity. constructor.
  - destruct (X v (I v (or_introl eq_refl))) as (x & Ex & N & G).
    assert (I' : incl vars (map fst c0)) by (intros w Hw; apply I; right; exact Hw).
    assert (T' : forall w, In w vars -> is_mc w = true \/ is_reco w = true) by (intros w Hw; apply T; right; exact Hw).
    cbn [root_extractors existsb]. fold (is_mc v). fold (is_reco v).
    destruct (is_mc v) eqn:M.
    + destruct (IH I' T' true ev) as (xs & E1 & K & R). exists ((v, x) :: xs).
      assert (is_reco v = false) as ->.
      { unfold is_mc, is_reco in *. destruct (String.eqb_spec (var_type v) "reco") as [Q|]; [|reflexivity]. rewrite Q in M. discriminate. }
      rewrite Ex. cbn [rbind]. rewrite E1. cbn [rbind map fst snd]. rewrite orb_true_r. split; [reflexivity|].
      split; [f_equal; exact K|]. constructor; [split; [exact N|exact G]|exact R].
    + destruct (T v (or_introl eq_refl)) as [H|H]; [congruence|]. rewrite H.
      destruct (IH I' T' mc true) as (xs & E1 & K & R). exists ((v, x) :: xs).
      rewrite Ex. cbn [rbind]. rewrite E1. cbn [rbind map fst snd]. rewrite orb_true_r. split; [reflexivity|].
      split; [f_equal; exact K|]. constructor; [split; [exact N|exact G]|exact R].
Qed.
Lemma root_unknown_type {X} (factory : string -> res X) vars mc ev :
  (exists v, In v vars /\ is_mc v = false /\ is_reco v = false) ->
  (forall v, In v vars -> exists x, factory v = Ok x) ->
  root_extractors factory vars mc ev = Err EIndexError.
Proof.
  revert mc ev. induction vars as [|w vars IH]; intros mc ev (v & Hv & M & R) F; [destruct Hv|].
  cbn [root_extractors]. fold (is_mc w). fold (is_reco w).
  destruct (is_mc w) eqn:Mw; [|destruct (is_reco w) eqn:Rw; [|reflexivity]].
  all: destruct Hv as [->|Hv]; [congruence|].
  all: destruct (F w (or_introl eq_refl)) as (x & ->); cbn [rbind].
  all: rewrite IH; [reflexivity|exists v; auto|intros u Hu; apply F; right; exact Hu].
Qed.

Section RootInto.
Variables D V : Type.
Variable evs : D -> list V.
Variable factory : string -> res (extractor (D * option V)).
Variable valid : string -> D * option V -> bool.
Variable value : string -> D * option V -> Qc.


Lemma existsb_false {A} (f : A -> bool) l : (forall x, In x l -> f x = false) -> existsb f l = false.
Proof.
  intro H. induction l as [|a l IH]; [reflexivity|]. cbn. rewrite (H a (or_introl eq_refl)). apply IH. intros x Hx. apply H. right. exact Hx.
Qed.
Lemma mc_not_reco v : is_mc v = true -> is_reco v = false.
Proof.
  unfold is_mc, is_reco. destruct (String.eqb_spec (var_type v) "reco") as [Q|]; [|reflexivity]. rewrite Q. discriminate.
Qed.

Lemma append_root_mc bipo ds s :
  wf_spectra s -> s_cfg s <> [] -> extracts (s_cfg s) factory valid value ->
  (forall v, In v (map fst (s_cfg s)) -> is_mc v = true) ->
  exists s', append_from_root evs factory bipo ds s = (s', None) /\
    counts (usable (s_cfg s) (of_entry valid) (of_entry value)) (of_entry value) (single_ev evs bipo ds) (decayed bipo ds s) s'.
Proof.
  intros W Nc X T. unfold append_from_root, root_into. cbn [s_cfg with_decays]. unfold get_pars, dkeys.
  destruct (root_extractors_ok (s_cfg s) factory valid value (map fst (s_cfg s)) false false X) as (xs & -> & K & R);
    [apply incl_refl|intros v Hv; left; apply T, Hv|].
  rewrite !orb_false_l.
  rewrite (existsb_false is_reco) by (intros v Hv; apply mc_not_reco, T, Hv). rewrite andb_false_r.
  assert (existsb is_mc (map fst (s_cfg s)) = true) as ->.
  { destruct (s_cfg s) as [|vp c]; [congruence|]. cbn. rewrite (T (fst vp)) by (left; reflexivity). reflexivity. }
  apply root_mc_counts; [exact R|destruct bipo; exact W|destruct bipo; reflexivity].
Qed.
Lemma append_root_ev bipo ds s :
  wf_spectra s -> extracts (s_cfg s) factory valid value ->
  (forall v, In v (map fst (s_cfg s)) -> is_mc v = true \/ is_reco v = true) ->
  (exists v, In v (map fst (s_cfg s)) /\ is_reco v = true) ->
  exists s', append_from_root evs factory bipo ds s = (s', None) /\
    counts (usable (s_cfg s) (of_trigger valid) (of_trigger value)) (of_trigger value)
      (triggers evs (single_ev evs bipo ds)) (decayed bipo ds s) s'.
Proof.
  intros W X T (v & Hv & Rv). unfold append_from_root, root_into. cbn [s_cfg with_decays]. unfold get_pars, dkeys.
  destruct (root_extractors_ok (s_cfg s) factory valid value (map fst (s_cfg s)) false false X) as (xs & -> & K & R);
    [apply incl_refl|exact T|].
  rewrite !orb_false_l.
  assert (existsb is_reco (map fst (s_cfg s)) = true) as -> by (apply existsb_exists; exists v; auto).
  rewrite andb_true_r. destruct (existsb is_mc (map fst (s_cfg s))) eqn:M.
  - apply root_mix_counts; [exact R|exact K|destruct bipo; exact W|destruct bipo; reflexivity].
  - apply root_ev_counts; [exact R| |destruct bipo; exact W|destruct bipo; reflexivity].
    intros w Hw. destruct (T w Hw) as [H|H]; [|exact H]. exfalso.
    assert (existsb is_mc (map fst (s_cfg s)) = true) by (apply existsb_exists; exists w; auto). congruence.
Qed.
Lemma append_root_unknown bipo ds s v :
  In v (map fst (s_cfg s)) -> is_mc v = false -> is_reco v = false ->
  (forall w, In w (map fst (s_cfg s)) -> exists x, factory w = Ok x) ->
  snd (append_from_root evs factory bipo ds s) = Some EIndexError.
Proof.
  intros Hv M R F. unfold append_from_root, root_into. cbn [s_cfg with_decays]. unfold get_pars, dkeys.
  rewrite root_unknown_type; [reflexivity|exists v; auto|exact F].
Qed.
End RootInto.

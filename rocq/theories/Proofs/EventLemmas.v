From Coq Require Import Lia Setoid.
From Verif Require Import Model.Base Model.PyStr Model.NDArray Model.Param Model.Config Model.Spectra Model.FillSpectrum.
From Verif Require Import Spec.AxisSpec Spec.ArraySpec Spec.SpectraSpec Spec.EventSpec.
From Verif Require Import Proofs.QcLemmas Proofs.NDArrayLemmas Proofs.ParamLemmas Proofs.DictLemmas Proofs.FillLemmas.

Lemma counts_nil {E} P (value : string -> E -> Qc) s : counts P value [] s s.
Proof. unfold counts, count. cbn. repeat split; try lia; intros; rewrite ?nq_0; ring. Qed.
Lemma counts_app {E} P (value : string -> E -> Qc) l m s s' s'' :
  counts P value l s s' -> counts P value m s' s'' -> counts P value (l ++ m) s s''.
Proof.
  unfold counts, count.
  intros (A1 & A2 & A3 & A4 & A5 & A6 & A7 & A8 & A9 & A10) (B1 & B2 & B3 & B4 & B5 & B6 & B7 & B8 & B9 & B10).
  repeat split; try congruence.
  - rewrite B8, A8, filter_app, app_length. lia.
  - rewrite B9, A9, filter_app, app_length, nq_add. ring.
  - intros idx V. rewrite B10 by (rewrite A7; exact V). rewrite A10 by exact V. rewrite A3.
    rewrite filter_app, app_length, nq_add. ring.
Qed.
Lemma counts_wf {E} P (value : string -> E -> Qc) l s s' : counts P value l s s' -> wf_spectra s -> wf_spectra s'.
Proof.
  intros (A1 & A2 & A3 & A4 & A5 & A6 & A7 & _) [W C]. unfold wf_spectra, consistent in *. rewrite A3, A7. auto.
Qed.

(** a keyword dictionary holding the values of an event *)
Definition holds {E} (c : sconfig) (value : string -> E -> Qc) (e : E) (kw : dict Qc) : Prop :=
  (forall k, In k (map fst kw) -> In k (map fst c)) /\
  (forall v, In v (map fst c) -> dget v kw = Some (value v e)).

Lemma holds_inside {E} c (value : string -> E -> Qc) e kw idx :
  (forall v, In v (map fst c) -> dget v kw = Some (value v e)) -> inside c kw idx = lies_in c value e idx.
Proof.
  revert idx. induction c as [|[v p] c IH]; intros idx H; destruct idx as [|i idx]; cbn [inside lies_in]; try reflexivity.
  rewrite (H v) by (left; reflexivity). rewrite IH; [reflexivity|]. intros w Hw. apply H. right. exact Hw.
Qed.
Definition in_range {E} (c : sconfig) (value : string -> E -> Qc) (e : E) : bool :=
  forallb (fun vp : string * spar => qle (sp_low (snd vp)) (value (fst vp) e) && qlt (value (fst vp) e) (sp_high (snd vp))) c.
Lemma holds_accepted {E} c (value : string -> E -> Qc) e kw :
  holds c value e kw -> accepted c kw = in_range c value e.
Proof.
  intros [H1 H2]. unfold accepted, in_range.
  assert (forallb (fun k => existsb (String.eqb k) (map fst c)) (map fst kw) = true) as ->.
  { apply forallb_forall. intros k Hk. apply (str_in_iff k (map fst c)), H1, Hk. }
  rewrite andb_true_l.
  assert (G : forall c', incl (map fst c') (map fst c) ->
    forallb (fun vp : string * spar => match dget (fst vp) kw with
       | Some x => qle (sp_low (snd vp)) x && qlt x (sp_high (snd vp)) | None => false end) c' =
    forallb (fun vp : string * spar => qle (sp_low (snd vp)) (value (fst vp) e) && qlt (value (fst vp) e) (sp_high (snd vp))) c').
  { induction c' as [|vp c' IH]; intro I; [reflexivity|]. cbn [forallb].
    rewrite (H2 (fst vp)) by (apply I; left; reflexivity). rewrite IH; [reflexivity|].
    intros w Hw. apply I. right. exact Hw. }
  apply G, incl_refl.
Qed.

Lemma usable_split {E} c valid (value : string -> E -> Qc) e :
  usable c valid value e = forallb (fun vp : string * spar => valid (fst vp) e) c && in_range c value e.
Proof.
  unfold usable, in_range. induction c as [|vp c IH]; [reflexivity|]. cbn [forallb]. rewrite IH.
  destruct (valid (fst vp) e), (qle _ _), (qlt _ _); cbn; rewrite ?andb_false_r; reflexivity.
Qed.

(** filling with a complete set of values never raises out of the try block *)
Lemma try_fill_counts {E} P (value : string -> E -> Qc) e kw s :
  wf_spectra s -> holds (s_cfg s) value e kw ->
  P e = in_range (s_cfg s) value e ->
  exists s', try_fill kw s = (s', None) /\ counts P value [e] s s'.
Proof.
  intros W H HP. unfold try_fill.
  pose proof (fill_meta 1 kw s) as M. pose proof (fill_content 1 kw s) as FC. pose proof (fill_sum 1 kw s W) as FS.
  destruct (fill_decide s kw 1 W) as [[V Eo]|(V & Es & Eo)].
  - destruct (fill 1 kw s) as [s1 o]. cbn [fst snd] in *. subst o. eexists. split; [reflexivity|].
    assert (A : accepted (s_cfg s) kw = true) by (apply accepted_iff, V).
    rewrite A in *. pose proof A as A'. rewrite (holds_accepted _ _ e) in A' by exact H. rewrite A' in HP.
    destruct M as (M1 & M2 & M3 & M4 & M5 & M6 & M7 & M8).
    unfold counts, count. cbn. rewrite HP. cbn. repeat split; try congruence.
    + unfold s_sum in *. cbn. rewrite FS. reflexivity.
    + intros idx Vi. rewrite FC by assumption.
      rewrite (holds_inside _ value e) by (apply H).
      destruct (lies_in (s_cfg s) value e idx); cbn; try reflexivity; rewrite ?nq_0; rewrite ?(nq_S 0), ?nq_0; ring.
  - assert (A : accepted (s_cfg s) kw = false).
    { destruct (accepted (s_cfg s) kw) eqn:A; [|reflexivity]. apply accepted_iff in A. tauto. }
    rewrite (holds_accepted _ _ e) in A by exact H. rewrite A in HP.
    assert (EV : snd (fill 1 kw s) = Some EValueError).
    { destruct Eo as [Eo|Eo]; [|exact Eo]. exfalso.
      destruct H as [H1 H2].
      rewrite fill_range_l in Eo; [discriminate| |].
      - intro k. split; [apply H1|]. intro K. apply H2 in K. apply dget_key in K. exact K.
      - unfold in_range in A.
        assert (G : exists vp, In vp (s_cfg s) /\ qle (sp_low (snd vp)) (value (fst vp) e) && qlt (value (fst vp) e) (sp_high (snd vp)) = false).
        { clear - A. revert A. induction (s_cfg s) as [|vp c IH]; cbn [forallb]; [discriminate|]. intro A.
          destruct (qle (sp_low (snd vp)) (value (fst vp) e) && qlt (value (fst vp) e) (sp_high (snd vp))) eqn:B.
          - destruct (IH A) as (w & Hw & Hb). exists w. split; [right; exact Hw|exact Hb].
          - exists vp. split; [left; reflexivity|exact B]. }
        destruct G as ([v p] & Hin & Hb). exists v, p, (value v e). split; [exact Hin|].
        split; [apply H2, in_map_iff; exists (v, p); auto|]. cbn [fst snd] in Hb.
        apply andb_false_iff in Hb as [Hb|Hb].
        + left. apply Qcnot_le_lt. intro K. apply qle_iff in K. congruence.
        + right. apply Qcnot_lt_le. intro K. apply qlt_iff in K. congruence. }
    destruct (fill 1 kw s) as [s1 o]. cbn [fst snd] in *. subst o s1. eexists. split; [reflexivity|].
    unfold counts, count. cbn. rewrite HP. cbn. repeat split; try lia; intros; rewrite ?nq_0; ring.
Qed.

(** a list of extractors reading the parameters [vs] *)
Definition reads {E} (valid : string -> E -> bool) (value : string -> E -> Qc) (xs : list (extractor E)) (vs : list string) : Prop :=
  Forall2 (fun x v => ex_name x = v /\ forall e, ex_valid x e = Ok (valid v e) /\ ex_value x e = value v e) xs vs.

Lemma factory_reads {E} c factory valid (value : string -> E -> Qc) :
  extracts c factory valid value ->
  exists xs, rmapM factory (map fst c) = Ok xs /\ reads valid value xs (map fst c).
Proof.
  unfold extracts. intro H. induction (map fst c) as [|v vs IH].
  - exists []. split; [reflexivity|constructor].
  - destruct IH as (xs & E1 & R); [intros w Hw; apply H; right; exact Hw|].
    destruct (H v (or_introl eq_refl)) as (x & E2 & N & G). exists (x :: xs). cbn [rmapM]. rewrite E2. cbn [rbind].
    rewrite E1. cbn [rbind]. split; [reflexivity|]. constructor; [split; [exact N|exact G]|exact R].
Qed.

Lemma dset_in {A} k (v : A) d k' : In k' (map fst (dset k v d)) -> k' = k \/ In k' (map fst d).
Proof.
  intro H. change (map fst (dset k v d)) with (dkeys (dset k v d)) in H. apply key_dget in H as [w H].
  destruct (string_dec k' k) as [->|N]; [left; reflexivity|]. rewrite dget_dset_other in H by congruence.
  right. apply dget_key in H. exact H.
Qed.

Lemma extract_reads {E} valid (value : string -> E -> Qc) xs vs e kw :
  reads valid value xs vs -> NoDup vs ->
  exists kw', extract xs e kw = Ok (kw', forallb (fun v => valid v e) vs) /\
    (forall k, In k (map fst kw') -> In k vs \/ In k (map fst kw)) /\
    (forall k, ~ In k vs -> dget k kw' = dget k kw) /\
    (forallb (fun v => valid v e) vs = true -> forall v, In v vs -> dget v kw' = Some (value v e)).
Proof.
  intros R ND. revert kw. induction R as [|x v xs vs (N & G) R IH]; intro kw.
  - exists kw. cbn. repeat split; try tauto.
  - inversion ND as [|? ? Nv ND']; subst. cbn [extract forallb]. destruct (G e) as [-> ->]. cbn [rbind].
    destruct (valid (ex_name x) e) eqn:V; cbn [andb].
    + destruct (IH ND' (dset (ex_name x) (value (ex_name x) e) kw)) as (kw' & E1 & K & O & A).
      exists kw'. split; [exact E1|]. split; [|split].
      * intros k Hk. apply K in Hk as [Hk|Hk]; [left; right; exact Hk|].
        apply dset_in in Hk as [->|Hk]; [left; left; reflexivity|right; exact Hk].
      * intros k Hk. rewrite O by (intro; apply Hk; right; assumption).
        apply dget_dset_other. intro; subst; apply Hk; left; reflexivity.
      * intros B v [<-|Hv]; [|apply A; assumption]. rewrite O by exact Nv. apply dget_dset_same.
    + exists kw. split; [reflexivity|]. split; [tauto|]. split; [reflexivity|discriminate].
Qed.

Lemma forallb_fst (f : string -> bool) (c : sconfig) :
  forallb f (map fst c) = forallb (fun vp : string * spar => f (fst vp)) c.
Proof. induction c as [|vp c IH]; cbn; [reflexivity|]. rewrite IH. reflexivity. Qed.

(** an invalid event changes nothing *)
Lemma counts_skip {E} P (value : string -> E -> Qc) e s : P e = false -> counts P value [e] s s.
Proof.
  intro H. unfold counts, count. cbn. rewrite H. cbn. repeat split; try lia; intros; rewrite ?nq_0; ring.
Qed.

Lemma ntuple_loop_counts {E} valid (value : string -> E -> Qc) c xs es s :
  reads valid value xs (map fst c) -> wf_spectra s -> s_cfg s = c ->
  exists s', ntuple_loop xs es s = (s', None) /\ counts (usable c valid value) value es s s'.
Proof.
  intro R. revert s. induction es as [|e es IH]; intros s W Ec.
  - exists s. split; [reflexivity|apply counts_nil].
  - cbn [ntuple_loop].
    assert (ND : NoDup (map fst c)) by (rewrite <- Ec; apply W).
    destruct (extract_reads valid value xs (map fst c) e [] R ND) as (kw & Ek & K & _ & A). rewrite Ek.
    rewrite forallb_fst in *. pose proof (usable_split c valid value e) as U.
    destruct (forallb _ c) eqn:V.
    + destruct (try_fill_counts (usable c valid value) value e kw s) as (s1 & Es & C1).
      * exact W.
      * rewrite Ec. split; [intros k Hk; apply K in Hk as [Hk|Hk]; [exact Hk|destruct Hk]|]. intros v Hv. apply A; [reflexivity|exact Hv].
      * rewrite Ec. exact U.
      * rewrite Es. destruct (IH s1) as (s2 & E2 & C2).
        -- eapply counts_wf; eassumption.
        -- destruct C1 as (_ & _ & C1 & _). congruence.
        -- exists s2. split; [exact E2|]. change (e :: es) with ([e] ++ es). eapply counts_app; eassumption.
    + destruct (IH s W Ec) as (s2 & E2 & C2). exists s2. split; [exact E2|]. change (e :: es) with ([e] ++ es).
      eapply counts_app; [apply counts_skip, U|exact C2].
Qed.

Lemma ntuple_into_l {E} (ev : E -> Z) c factory valid value es s :
  wf_spectra s -> s_cfg s = c -> extracts c factory valid value ->
  exists s', ntuple_into ev factory false es s = (s', None) /\ counts (usable c valid value) value es s s'.
Proof.
  intros W Ec X. unfold ntuple_into. destruct (factory_reads c factory valid value X) as (xs & E1 & R).
  unfold get_pars, dkeys. rewrite Ec, E1. eapply ntuple_loop_counts; eassumption.
Qed.
Lemma append_l {E} (ev : E -> Z) factory valid value es s :
  wf_spectra s -> extracts (s_cfg s) factory valid value ->
  exists s', append_from_ntuple ev factory false es s = (s', None) /\
    counts (usable (s_cfg s) valid value) value es (with_decays s (s_decays s + nq (length es))%Qc) s'.
Proof.
  intros W X. unfold append_from_ntuple. apply ntuple_into_l; [exact W|reflexivity|exact X].
Qed.
Lemma fill_from_ntuple_l {E} (ev : E -> Z) c factory valid value name es :
  wf_cfg c -> name <> EmptyString -> extracts c factory valid value ->
  exists s0 s, new_spectra name (nq (length es)) c None = Ok s0 /\
    fill_from_ntuple ev factory name (Some c) false es = Ok s /\
    counts (usable c valid value) value es s0 s.
Proof.
  intros W N X. destruct (new_spectra_ok name (nq (length es)) c None W) as (s0 & E0 & W0 & Ec & _).
  destruct (ntuple_into_l ev c factory valid value es s0 W0 Ec X) as (s & E1 & C).
  exists s0, s. split; [exact E0|]. split; [|exact C]. unfold fill_from_ntuple.
  destruct (String.eqb_spec name ""); [congruence|]. rewrite E0. cbn [rbind]. rewrite E1. reflexivity.
Qed.
Lemma new_counts {E} P (value : string -> E -> Qc) l name n c bg s0 s :
  wf_cfg c -> new_spectra name n c bg = Ok s0 -> counts P value l s0 s ->
  s_name s = name /\ s_cfg s = c /\ s_decays s = n /\ s_raw s = Z.of_nat (count P l) /\
  s_sum s = nq (count P l) /\ consistent s /\
  forall idx, valid_idx (cfg_shape c) idx ->
    aget (s_data s) idx = nq (count (fun e => P e && lies_in c value e idx) l).
Proof.
  intros W E0 C. destruct (new_spectra_ok name n c bg W) as (s1 & E1 & W1 & Ec & Ed & Er & Z & En & _).
  assert (s1 = s0) by congruence. subst s1. pose proof (counts_wf _ _ _ _ _ C W1) as [_ Cs].
  destruct C as (A1 & A2 & A3 & A4 & A5 & A6 & A7 & A8 & A9 & A10).
  assert (S0 : s_sum s0 = 0%Qc).
  { unfold s_sum, asum. rewrite (@sum_over_ext _ _ (fun _ => 0%Qc)) by (intros; apply Z). apply sum_over_zero. }
  repeat split; try congruence.
  - rewrite A8, Er. lia.
  - rewrite A9, S0. ring.
  - intros idx V. destruct W1 as [_ C1]. rewrite A10 by (rewrite C1, Ec; exact V). rewrite Z, Ec. ring.
Qed.

Lemma ntuple_new_l {E} (ev : E -> Z) c factory valid value name es :
  wf_cfg c -> name <> EmptyString -> extracts c factory valid value ->
  exists s, fill_from_ntuple ev factory name (Some c) false es = Ok s /\
    s_name s = name /\ s_cfg s = c /\ s_decays s = nq (length es) /\
    s_raw s = Z.of_nat (count (usable c valid value) es) /\
    s_sum s = nq (count (usable c valid value) es) /\ consistent s /\
    forall idx, valid_idx (cfg_shape c) idx ->
      aget (s_data s) idx = nq (count (fun e => usable c valid value e && lies_in c value e idx) es).
Proof.
  intros W N X. destruct (fill_from_ntuple_l ev c factory valid value name es W N X) as (s0 & s & E0 & E1 & C).
  exists s. split; [exact E1|]. eapply new_counts; eassumption.
Qed.

(** ** BiPo *)
Lemma extract_bipo_reads {E} valid (value : string -> E -> Qc) xs vs e kw chk :
  reads valid value xs vs -> vs <> [] ->
  extract_bipo xs e kw chk = extract xs e kw.
Proof.
  intros R N.
  assert (G : forall xs' vs', reads valid value xs' vs' -> forall kw', extract_bipo xs' e kw' true = extract xs' e kw').
  { clear. induction 1 as [|x v xs vs (N & G) R IH]; intro kw; [reflexivity|]. cbn [extract extract_bipo].
    destruct (G e) as [-> ->]. cbn [rbind]. destruct (valid v e); [apply IH|reflexivity]. }
  destruct R as [|x v xs vs (Nx & Gx) R]; [congruence|]. cbn [extract extract_bipo].
  destruct (Gx e) as [-> ->]. cbn [rbind]. destruct (valid v e); [eapply G, R|reflexivity].
Qed.

Definition pend {E} (chk : bool) (p : option E) : list E := if chk then match p with Some e => [e] | None => [] end else [].
Definition kept {E} (ev : E -> Z) (P : E -> bool) (p : E * E) : bool :=
  (ev (fst p) =? 0)%Z && P (fst p) && (ev (snd p) <? 1)%Z.

Lemma counts_ext {E F} (P : E -> bool) (value : string -> E -> Qc) (Q : F -> bool) (value' : string -> F -> Qc) l m s s' :
  count P l = count Q m ->
  (forall idx, count (fun e => P e && lies_in (s_cfg s) value e idx) l =
               count (fun e => Q e && lies_in (s_cfg s) value' e idx) m) ->
  counts P value l s s' -> counts Q value' m s s'.
Proof.
  intros H1 H2 (A1 & A2 & A3 & A4 & A5 & A6 & A7 & A8 & A9 & A10). unfold counts.
  rewrite <- H1. repeat split; try assumption. intros idx V. rewrite <- H2. apply A10, V.
Qed.

(** [prev] is the previous entry; the loop state remembers whether it is a valid first
    trigger. *)
Lemma bipo_loop_counts {E} (ev : E -> Z) valid (value : string -> E -> Qc) c xs :
  reads valid value xs (map fst c) -> c <> [] ->
  forall es prev chk kw s,
  wf_spectra s -> s_cfg s = c ->
  chk = (ev prev =? 0)%Z && forallb (fun vp : string * spar => valid (fst vp) prev) c ->
  (chk = true -> holds c value prev kw) ->
  exists s', bipo_loop ev xs es chk kw s = (s', None) /\
    counts (kept ev (usable c valid value)) (fun v p => value v (fst p)) (pairs (prev :: es)) s s'.
Proof.
  intros R Nc. induction es as [|e es IH]; intros prev chk kw s W Ec Hc Hk.
  - exists s. split; [reflexivity|]. apply counts_nil.
  - cbn [bipo_loop].
    assert (ND : NoDup (map fst c)) by (rewrite <- Ec; apply W).
    assert (S1 : exists s1, (if chk && (ev e <? 1)%Z then try_fill kw s else (s, None)) = (s1, None) /\
      counts (kept ev (usable c valid value)) (fun v p => value v (fst p)) [(prev, e)] s s1).
    { destruct (chk && (ev e <? 1)%Z) eqn:B.
      - apply andb_true_iff in B as [B1 B2]. specialize (Hk B1). rewrite B1 in Hc. symmetry in Hc. apply andb_true_iff in Hc as [H0 Hv].
        destruct (try_fill_counts (usable c valid value) value prev kw s) as (s1 & E1 & C1).
        + exact W.
        + rewrite Ec. exact Hk.
        + rewrite usable_split, Hv, Ec. reflexivity.
        + exists s1. split; [exact E1|]. revert C1. apply counts_ext.
          * unfold count, kept. cbn. rewrite H0, B2. cbn. rewrite andb_true_r. destruct (usable c valid value prev); reflexivity.
          * intro idx. unfold count, kept. cbn. rewrite H0, B2. cbn. rewrite andb_true_r.
            assert (L : forall c', lies_in c' value prev idx = lies_in c' (fun v (p : E * E) => value v (fst p)) (prev, e) idx).
            { intro c'. revert idx. induction c' as [|[v p] c' IHc]; intros [|i idx]; cbn; try reflexivity. rewrite IHc. reflexivity. }
            rewrite L. destruct (_ && _); reflexivity.
      - exists s. split; [reflexivity|]. apply counts_skip. unfold kept. cbn [fst snd].
        rewrite usable_split. apply andb_false_iff in B as [B|B].
        + rewrite B in Hc. symmetry in Hc. apply andb_false_iff in Hc as [H|H]; rewrite H; cbn; rewrite ?andb_false_r; reflexivity.
        + rewrite B, andb_false_r. reflexivity. }
    destruct S1 as (s1 & E1 & C1). rewrite E1.
    assert (W1 : wf_spectra s1) by (eapply counts_wf; eassumption).
    assert (Ec1 : s_cfg s1 = c) by (destruct C1 as (_ & _ & C1 & _); congruence).
    assert (Step : forall chk' kw', chk' = (ev e =? 0)%Z && forallb (fun vp : string * spar => valid (fst vp) e) c ->
       (chk' = true -> holds c value e kw') ->
       exists s', bipo_loop ev xs es chk' kw' s1 = (s', None) /\
       counts (kept ev (usable c valid value)) (fun v p => value v (fst p)) (pairs (prev :: e :: es)) s s').
    { intros chk' kw' H1 H2. destruct (IH e chk' kw' s1 W1 Ec1 H1 H2) as (s2 & E2 & C2). exists s2. split; [exact E2|].
      change (pairs (prev :: e :: es)) with ([(prev, e)] ++ pairs (e :: es)). eapply counts_app; eassumption. }
    destruct (ev e =? 0)%Z eqn:B0; cbn [negb].
    + rewrite (extract_bipo_reads valid value xs (map fst c)) by (exact R || (destruct c; [congruence|discriminate])).
      destruct (extract_reads valid value xs (map fst c) e [] R ND) as (kw' & Ek & K & _ & A). rewrite Ek.
      rewrite forallb_fst in *. apply Step; [rewrite andb_true_l; reflexivity|].
      intro Hv. split; [intros k Hk'; apply K in Hk' as [Hk'|Hk']; [exact Hk'|destruct Hk']|]. intros v Hv'. apply A; assumption.
    + apply Step; [reflexivity|discriminate].
Qed.

Lemma bipo_loop_start {E} (ev : E -> Z) valid (value : string -> E -> Qc) c xs es s :
  reads valid value xs (map fst c) -> c <> [] -> wf_spectra s -> s_cfg s = c ->
  exists s', bipo_loop ev xs es false [] s = (s', None) /\
    counts (kept ev (usable c valid value)) (fun v p => value v (fst p)) (pairs es) s s'.
Proof.
  intros R Nc W Ec. destruct es as [|e es].
  - exists s. split; [reflexivity|apply counts_nil].
  - cbn [bipo_loop]. rewrite andb_false_l.
    assert (ND : NoDup (map fst c)) by (rewrite <- Ec; apply W).
    destruct (ev e =? 0)%Z eqn:B0; cbn [negb].
    + rewrite (extract_bipo_reads valid value xs (map fst c)) by (exact R || (destruct c; [congruence|discriminate])).
      destruct (extract_reads valid value xs (map fst c) e [] R ND) as (kw' & Ek & K & _ & A). rewrite Ek.
      rewrite forallb_fst in *. apply (bipo_loop_counts ev valid value c xs R Nc); auto.
      * rewrite B0, andb_true_l. reflexivity.
      * intro Hv. split; [intros k Hk'; apply K in Hk' as [Hk'|Hk']; [exact Hk'|destruct Hk']|]. intros v Hv'. apply A; assumption.
    + apply (bipo_loop_counts ev valid value c xs R Nc); auto; [rewrite B0; reflexivity|discriminate].
Qed.

Lemma bipo_into_l {E} (ev : E -> Z) factory valid value es s :
  wf_spectra s -> s_cfg s <> [] -> extracts (s_cfg s) factory valid value ->
  exists s', append_from_ntuple ev factory true es s = (s', None) /\
    counts (fun p => (ev (fst p) =? 0)%Z && usable (s_cfg s) valid value (fst p) && (ev (snd p) <? 1)%Z)
      (fun v p => value v (fst p)) (pairs es)
      (with_bipo (with_decays s (s_decays s + nq (length es))%Qc) 1) s'.
Proof.
  intros W Nc X. unfold append_from_ntuple, ntuple_into.
  destruct (factory_reads _ factory valid value X) as (xs & E1 & R).
  cbn [s_cfg with_decays]. unfold get_pars, dkeys. rewrite E1.
  apply (bipo_loop_start ev valid value (s_cfg s)); auto.
Qed.
Lemma bipo_new_l {E} (ev : E -> Z) c factory valid value name es :
  wf_cfg c -> c <> [] -> name <> EmptyString -> extracts c factory valid value ->
  exists s, fill_from_ntuple ev factory name (Some c) true es = Ok s /\
    let kept := fun p => (ev (fst p) =? 0)%Z && usable c valid value (fst p) && (ev (snd p) <? 1)%Z in
    s_bipo s = 1%Z /\ s_decays s = nq (length es) /\
    s_raw s = Z.of_nat (count kept (pairs es)) /\ s_sum s = nq (count kept (pairs es)) /\
    forall idx, valid_idx (cfg_shape c) idx ->
      aget (s_data s) idx = nq (count (fun p => kept p && lies_in c value (fst p) idx) (pairs es)).
Proof.
  intros W Nc N X. destruct (new_spectra_ok name (nq (length es)) c None W) as (s0 & E0 & W0 & Ec & _).
  unfold fill_from_ntuple. destruct (String.eqb_spec name ""); [congruence|]. rewrite E0. cbn [rbind].
  unfold ntuple_into. destruct (factory_reads _ factory valid value X) as (xs & E1 & R).
  unfold get_pars, dkeys. rewrite Ec, E1.
  destruct (bipo_loop_start ev valid value c xs es (with_bipo s0 1) R Nc) as (s & Es & C); [exact W0|exact Ec|].
  exists s. rewrite Es. split; [reflexivity|]. cbn zeta.
  destruct C as (A1 & A2 & A3 & A4 & A5 & A6 & A7 & A8 & A9 & A10).
  assert (S0 : s_sum s0 = 0%Qc /\ s_raw s0 = 0%Z /\ s_decays s0 = nq (length es) /\ forall i, aget (s_data s0) i = 0%Qc).
  { destruct (new_spectra_ok name (nq (length es)) c None W) as (s1 & F1 & _ & _ & Ed & Er & Z & _).
    assert (s1 = s0) by congruence. subst s1. repeat split; auto.
    unfold s_sum, asum. rewrite (@sum_over_ext _ _ (fun _ => 0%Qc)) by (intros; apply Z). apply sum_over_zero. }
  destruct S0 as (S0 & Sr & Sd & Sz). unfold kept in *.
  split; [rewrite A5; reflexivity|]. split; [rewrite A4; exact Sd|].
  split; [rewrite A8; cbn; rewrite Sr; reflexivity|]. split.
  - rewrite A9. unfold s_sum at 1. cbn [s_data with_bipo]. fold (s_sum s0). rewrite S0. ring.
  - intros idx V. rewrite A10 by (cbn; destruct W0 as [_ C1]; rewrite C1, Ec; exact V). cbn [s_data with_bipo].
    rewrite Sz. cbn [s_cfg with_bipo]. rewrite Ec. rewrite Qcplus_0_l. f_equal.
    unfold count. f_equal. apply filter_ext. intros [a b]. f_equal. cbn [fst].
    clear. revert idx. induction c as [|[v p] c IH]; intros [|i idx]; cbn; try reflexivity. rewrite IH. reflexivity.
Qed.

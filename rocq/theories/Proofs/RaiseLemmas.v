(** Fills that an extractor stops with an exception. *)
From Coq Require Import Lia.
From Verif Require Import Model.Base Model.PyStr Model.NDArray Model.Param Model.Config Model.Spectra Model.FillSpectrum.
From Verif Require Import Spec.AxisSpec Spec.ArraySpec Spec.SpectraSpec Spec.EventSpec.
From Verif Require Import Proofs.QcLemmas Proofs.NDArrayLemmas Proofs.ParamLemmas Proofs.DictLemmas Proofs.FillLemmas Proofs.EventLemmas Proofs.RootLemmas.

(** The same extractor, invalid where it raised. *)
Definition tame {E} (x : extractor E) : extractor E :=
  Ext (ex_name x) (fun e => match ex_valid x e with Ok b => Ok b | Err _ => Ok false end) (ex_value x).
Definition tame2 {E} (p : string * extractor E) : string * extractor E := (fst p, tame (snd p)).
Definition tamed {E} (factory : string -> res (extractor E)) (v : string) : res (extractor E) := rmap tame (factory v).

Lemma tamed_extracts {E} c factory valid (value : string -> E -> Qc) : extracts_r c factory valid value -> extracts c (tamed factory) (passes valid) value.
Proof.
  intros H v Hv. destruct (H v Hv) as (x & F & N & G). exists (tame x). unfold tamed. rewrite F. split; [reflexivity|]. split; [exact N|].
  intro e. destruct (G e) as [A B]. split; [|exact B]. unfold passes. cbn [tame ex_valid]. rewrite A. destruct (valid v e); reflexivity.
Qed.
Lemma rmapM_tamed {E} (factory : string -> res (extractor E)) vs xs : rmapM factory vs = Ok xs -> rmapM (tamed factory) vs = Ok (map tame xs).
Proof.
  revert xs. induction vs as [|v vs IH]; intros xs H; cbn [rmapM] in *; [injection H as <-; reflexivity|].
  unfold tamed at 1. destruct (factory v) as [x|]; cbn [rbind rmap] in *; [|discriminate].
  destruct (rmapM factory vs) as [ys|]; cbn [rbind] in *; [|discriminate]. injection H as <-. rewrite (IH ys eq_refl). reflexivity.
Qed.
Lemma root_tamed {E} (factory : string -> res (extractor E)) vs : forall mc ev xs m v, root_extractors factory vs mc ev = Ok (xs, m, v) ->
  root_extractors (tamed factory) vs mc ev = Ok (map tame2 xs, m, v).
Proof.
  induction vs as [|w vs IH]; intros mc ev xs m v H; cbn [root_extractors] in *; [injection H as <- <- <-; reflexivity|].
  destruct (_ || _); [|destruct (String.eqb _ "reco"); [|discriminate]];
    (unfold tamed at 1; destruct (factory w) as [x|]; cbn [rbind rmap] in *; [|discriminate];
     destruct (root_extractors factory vs _ _) as [[[ys m'] v']|] eqn:R; cbn [rbind] in *; [|discriminate];
     injection H as <- <- <-; rewrite (IH _ _ _ _ _ R); reflexivity).
Qed.

Definition reads_r {E} (valid : string -> E -> res bool) (value : string -> E -> Qc) (xs : list (extractor E)) (vs : list string) : Prop :=
  Forall2 (fun x v => ex_name x = v /\ forall e, ex_valid x e = valid v e /\ ex_value x e = value v e) xs vs.
Lemma rmapM_reads {E} factory valid (value : string -> E -> Qc) vs :
  (forall v, In v vs -> exists x, factory v = Ok x /\ ex_name x = v /\ (forall e, ex_valid x e = valid v e /\ ex_value x e = value v e)) ->
  exists xs, rmapM factory vs = Ok xs /\ reads_r valid value xs vs.
Proof.
  induction vs as [|v vs IH]; intro H; [exists []; split; [reflexivity|constructor]|].
  destruct (H v (or_introl eq_refl)) as (x & F & N & G). destruct IH as (xs & R & Rd); [intros w Hw; apply H; right; exact Hw|].
  exists (x :: xs). cbn [rmapM]. rewrite F. cbn [rbind]. rewrite R. split; [reflexivity|]. constructor; [auto|exact Rd].
Qed.
Lemma root_reads {E} factory valid (value : string -> E -> Qc) vs :
  (forall v, In v vs -> exists x, factory v = Ok x /\ ex_name x = v /\ (forall e, ex_valid x e = valid v e /\ ex_value x e = value v e)) ->
  (forall v, In v vs -> is_mc v = true \/ is_reco v = true) ->
  forall mc ev, exists xs, root_extractors factory vs mc ev = Ok (xs, mc || existsb is_mc vs, ev || existsb is_reco vs) /\
    reads_r valid value (map snd xs) vs /\ map fst xs = vs.
Proof.
  induction vs as [|v vs IH]; intros H T mc ev; [exists []; cbn; rewrite !orb_false_r; repeat split; constructor|].
  destruct (H v (or_introl eq_refl)) as (x & F & N & G). cbn [root_extractors existsb]. fold (is_mc v). fold (is_reco v).
  destruct (is_mc v) eqn:M.
  - rewrite (mc_not_reco v M). destruct (IH (fun w Hw => H w (or_intror Hw)) (fun w Hw => T w (or_intror Hw)) true ev) as (xs & R & Rd & K).
    exists ((v, x) :: xs). rewrite F. cbn [rbind]. rewrite R. cbn [rbind orb]. rewrite orb_true_r. split; [reflexivity|]. cbn. rewrite K. split; [constructor; auto|reflexivity].
  - destruct (T v (or_introl eq_refl)) as [Q|Q]; [congruence|]. rewrite Q.
    destruct (IH (fun w Hw => H w (or_intror Hw)) (fun w Hw => T w (or_intror Hw)) mc true) as (xs & R & Rd & K).
    exists ((v, x) :: xs). rewrite F. cbn [rbind]. rewrite R. cbn [rbind orb]. rewrite orb_true_r. split; [reflexivity|]. cbn. rewrite K. split; [constructor; auto|reflexivity].
Qed.
Lemma extract_tested {E} valid (value : string -> E -> Qc) xs vs e : reads_r valid value xs vs -> forall kw,
  match tested vs valid e with Ok b => exists kw', extract xs e kw = Ok (kw', b) | Err x => extract xs e kw = Err x end.
Proof.
  induction 1 as [|x v xs vs [N G] R IH]; intro kw; cbn [tested extract]; [eauto|].
  destruct (G e) as [A B]. rewrite A. destruct (valid v e) as [[|]|]; cbn [rbind]; [apply IH|eauto|reflexivity].
Qed.
Lemma extract_tame {E} (xs : list (extractor E)) e : forall kw r, extract xs e kw = Ok r -> extract (map tame xs) e kw = Ok r.
Proof.
  induction xs as [|x xs IH]; intros kw r H; cbn [extract map] in *; [exact H|]. cbn [tame ex_valid ex_name ex_value].
  destruct (ex_valid x e) as [[|]|]; cbn [rbind] in *; [apply IH, H|exact H|discriminate].
Qed.
Lemma snd_tame {E} (xs : list (string * extractor E)) : map snd (map tame2 xs) = map tame (map snd xs).
Proof. rewrite !map_map. reflexivity. Qed.

(** ntuples *)
Lemma ntuple_stop {E} (xs : list (extractor E)) e x post : extract xs e [] = Err x -> forall pre s s1,
  (forall d, In d pre -> exists r, extract xs d [] = Ok r) -> ntuple_loop (map tame xs) pre s = (s1, None) ->
  ntuple_loop xs (pre ++ e :: post)%list s = (s1, Some x).
Proof.
  intros H. induction pre as [|d pre IH]; intros s s1 K L; cbn [app ntuple_loop] in *; [rewrite H; injection L as <-; reflexivity|].
  destruct (K d (or_introl eq_refl)) as [[kw b] Ed]. rewrite Ed. rewrite (extract_tame _ _ _ _ Ed) in L. destruct b.
  - destruct (try_fill kw s) as [s' [y|]]; [discriminate|]. apply IH; [intros; apply K; now right|exact L].
  - apply IH; [intros; apply K; now right|exact L].
Qed.
Lemma ntuple_raises_l {E} (ev : E -> Z) factory valid value pre e x post s :
  wf_spectra s -> extracts_r (s_cfg s) factory valid value ->
  (forall d, In d pre -> exists b, tested (map fst (s_cfg s)) valid d = Ok b) -> tested (map fst (s_cfg s)) valid e = Err x ->
  exists s', append_from_ntuple ev factory false (pre ++ e :: post)%list s = (s', Some x) /\
    counts (usable (s_cfg s) (passes valid) value) value pre (with_decays s (s_decays s + nq (length (pre ++ e :: post)%list))%Qc) s'.
Proof.
  intros W X K H. unfold append_from_ntuple. set (s0 := with_decays s _). assert (W0 : wf_spectra s0) by exact W.
  unfold ntuple_into. change (s_cfg s0) with (s_cfg s). unfold get_pars, dkeys.
  destruct (rmapM_reads factory valid value (map fst (s_cfg s)) X) as (xs & R & Rd). rewrite R.
  destruct (ntuple_into_l ev (s_cfg s) (tamed factory) (passes valid) value pre s0 W0 eq_refl (tamed_extracts _ _ _ _ X)) as (s' & L & C).
  unfold ntuple_into in L. change (s_cfg s0) with (s_cfg s) in L. unfold get_pars, dkeys in L. rewrite (rmapM_tamed _ _ _ R) in L.
  exists s'. split; [|exact C]. apply ntuple_stop; [|intros d Hd|exact L].
  - pose proof (extract_tested valid value xs _ e Rd []) as T. rewrite H in T. exact T.
  - destruct (K d Hd) as [b Eb]. pose proof (extract_tested valid value xs _ d Rd []) as T. rewrite Eb in T. destruct T as [kw' T]. eauto.
Qed.

(** ROOT files *)
Section Root.
Variables D V : Type.
Variable evs : D -> list V.
Variable bipo : bool.
Definition cut_ok (d : D) : Prop := bipo = true -> length (evs d) = 1%nat.
Lemma cut_false d : cut_ok d -> bipo && negb (Nat.eqb (length (evs d)) 1) = false.
Proof. unfold cut_ok. destruct bipo; [|reflexivity]. intro H. rewrite H by reflexivity. reflexivity. Qed.
Lemma single_skip d ds : bipo && negb (Nat.eqb (length (evs d)) 1) = true -> single_ev evs bipo (d :: ds) = single_ev evs bipo ds.
Proof. intro H. rewrite single_cons, H. reflexivity. Qed.
Lemma single_keep d ds : bipo && negb (Nat.eqb (length (evs d)) 1) = false -> single_ev evs bipo (d :: ds) = d :: single_ev evs bipo ds.
Proof. intro H. rewrite single_cons, H. reflexivity. Qed.

Lemma root_mc_stop (xs : list (string * extractor (D * option V))) d x post : cut_ok d -> extract (map snd xs) (d, None) [] = Err x -> forall pre s s1,
  (forall d', In d' (single_ev evs bipo pre) -> exists r, extract (map snd xs) (d', None) [] = Ok r) -> root_mc evs (map tame2 xs) bipo pre s = (s1, None) ->
  root_mc evs xs bipo (pre ++ d :: post)%list s = (s1, Some x).
Proof.
  intros C H. induction pre as [|d' pre IH]; intros s s1 K L; cbn [app root_mc] in *.
  - rewrite (cut_false d C), H. injection L as <-. reflexivity.
  - destruct (bipo && _) eqn:B; [apply IH; [intros q Q; apply K; now rewrite single_skip|exact L]|].
    rewrite (single_keep _ _ B) in K. destruct (K d' (or_introl eq_refl)) as [[kw b] Ed]. rewrite Ed. rewrite snd_tame, (extract_tame _ _ _ _ Ed) in L. destruct b.
    + destruct (try_fill kw s) as [s' [y|]]; [discriminate|]. apply IH; [intros; apply K; now right|exact L].
    + apply IH; [intros; apply K; now right|exact L].
Qed.
Lemma ev_loop_tame (xs : list (string * extractor (D * option V))) d rest : forall vs s s1,
  (forall v, In v vs -> exists r, extract (map snd xs) (d, Some v) [] = Ok r) -> ev_loop (map tame2 xs) d vs s = (s1, None) ->
  ev_loop xs d (vs ++ rest)%list s = ev_loop xs d rest s1.
Proof.
  induction vs as [|v vs IH]; intros s s1 K L; cbn [app ev_loop] in *; [injection L as <-; reflexivity|].
  destruct (K v (or_introl eq_refl)) as [[kw b] Ed]. rewrite Ed. rewrite snd_tame, (extract_tame _ _ _ _ Ed) in L. destruct b.
  - destruct (try_fill kw s) as [s' [y|]]; [discriminate|]. apply IH; [intros; apply K; now right|exact L].
  - apply IH; [intros; apply K; now right|exact L].
Qed.
Lemma extract_mix_tame (xs : list (string * extractor (D * option V))) d v : forall kw r, extract_mix xs d v kw = Ok r -> extract_mix (map tame2 xs) d v kw = Ok r.
Proof.
  induction xs as [|[w x] xs IH]; intros kw r H; cbn [extract_mix map tame2 fst snd] in *; [exact H|]. cbn [tame ex_valid ex_name ex_value].
  destruct (ex_valid x _) as [[|]|]; cbn [rbind] in *; [apply IH, H|exact H|discriminate].
Qed.
Lemma extract_mix_tested valid (value : string -> D * option V -> Qc) xs vs d v : reads_r valid value (map snd xs) vs -> map fst xs = vs -> forall kw,
  match tested vs (of_trigger valid) (d, v) with Ok b => exists kw', extract_mix xs d v kw = Ok (kw', b) | Err x => extract_mix xs d v kw = Err x end.
Proof.
  revert vs. induction xs as [|[w x] xs IH]; intros vs R K kw; cbn [map fst snd] in *; subst vs; cbn [tested extract_mix]; [eauto|].
  inversion R as [|x0 w0 xs0 vs0 [N G] R']; subst. unfold of_trigger at 1. cbn [fst snd].
  destruct (G (if String.eqb (var_type (ex_name x)) "reco" then (d, Some v) else (d, None))) as [A B]. rewrite A.
  destruct (valid _ _) as [[|]|]; cbn [rbind]; [apply IH; [exact R'|reflexivity]|eauto|reflexivity].
Qed.
Lemma mix_loop_tame (xs : list (string * extractor (D * option V))) d rest : forall vs kw s s1,
  (forall v kw, In v vs -> exists r, extract_mix xs d v kw = Ok r) -> mix_loop (map tame2 xs) d vs kw s = (s1, None) ->
  exists kw', mix_loop xs d (vs ++ rest)%list kw s = mix_loop xs d rest kw' s1.
Proof.
  induction vs as [|v vs IH]; intros kw s s1 K L; cbn [app mix_loop] in *; [injection L as <-; eauto|].
  destruct (K v kw (or_introl eq_refl)) as [[kw' b] Ed]. rewrite Ed. rewrite (extract_mix_tame _ _ _ _ _ Ed) in L. destruct b.
  - destruct (try_fill kw' s) as [s' [y|]]; [discriminate|]. apply IH; [intros; apply K; now right|exact L].
  - apply IH; [intros; apply K; now right|exact L].
Qed.
Lemma root_ev_stop (xs : list (string * extractor (D * option V))) d x vpre v vpost post : cut_ok d -> evs d = (vpre ++ v :: vpost)%list -> extract (map snd xs) (d, Some v) [] = Err x -> forall pre s s1 s2,
  (forall d' v', In (d', v') (triggers evs (single_ev evs bipo pre)) \/ d' = d /\ In v' vpre -> exists r, extract (map snd xs) (d', Some v') [] = Ok r) ->
  root_ev evs (map tame2 xs) bipo pre s = (s1, None) -> ev_loop (map tame2 xs) d vpre s1 = (s2, None) ->
  root_ev evs xs bipo (pre ++ d :: post)%list s = (s2, Some x).
Proof.
  intros C Ev H. induction pre as [|d' pre IH]; intros s s1 s2 K L L2; cbn [app root_ev] in *.
  - injection L as ->. rewrite (cut_false d C), Ev, (ev_loop_tame xs d (v :: vpost) vpre s1 s2); [|intros; apply K; now right|exact L2]. cbn [ev_loop]. now rewrite H.
  - destruct (bipo && _) eqn:B; [apply (IH s s1 s2); [intros a b Q; apply K; now rewrite single_skip|exact L|exact L2]|].
    rewrite (single_keep _ _ B) in K. destruct (ev_loop (map tame2 xs) d' (evs d') s) as [s' [y|]] eqn:E1; [discriminate|].
    assert (K1 : forall v', In v' (evs d') -> exists r, extract (map snd xs) (d', Some v') [] = Ok r).
    { intros v' I. apply K. left. cbn. apply in_or_app. left. now apply in_map. }
    pose proof (ev_loop_tame xs d' [] (evs d') s s' K1 E1) as E2. rewrite app_nil_r in E2. rewrite E2. cbn [ev_loop].
    apply (IH s' s1 s2); [intros a b [Q|Q]; apply K; [left; cbn; apply in_or_app; now right|now right]|exact L|exact L2].
Qed.
Lemma root_mix_stop (xs : list (string * extractor (D * option V))) d x vpre v vpost post : cut_ok d -> evs d = (vpre ++ v :: vpost)%list -> (forall kw, extract_mix xs d v kw = Err x) -> forall pre s s1 s2,
  (forall d' v' kw, In (d', v') (triggers evs (single_ev evs bipo pre)) \/ d' = d /\ In v' vpre -> exists r, extract_mix xs d' v' kw = Ok r) ->
  root_mix evs (map tame2 xs) bipo pre s = (s1, None) -> mix_loop (map tame2 xs) d vpre [] s1 = (s2, None) ->
  root_mix evs xs bipo (pre ++ d :: post)%list s = (s2, Some x).
Proof.
  intros C Ev H. induction pre as [|d' pre IH]; intros s s1 s2 K L L2; cbn [app root_mix] in *.
  - injection L as ->. rewrite (cut_false d C), Ev. destruct (mix_loop_tame xs d (v :: vpost) vpre [] s1 s2) as [kw' ->]; [intros; apply K; now right|exact L2|]. cbn [mix_loop]. now rewrite H.
  - destruct (bipo && _) eqn:B; [apply (IH s s1 s2); [intros a b kw Q; apply K; now rewrite single_skip|exact L|exact L2]|].
    rewrite (single_keep _ _ B) in K. destruct (mix_loop (map tame2 xs) d' (evs d') [] s) as [s' [y|]] eqn:E1; [discriminate|].
    assert (K1 : forall v' kw, In v' (evs d') -> exists r, extract_mix xs d' v' kw = Ok r).
    { intros v' kw I. apply K. left. cbn. apply in_or_app. left. now apply in_map. }
    destruct (mix_loop_tame xs d' [] (evs d') [] s s' K1 E1) as [kw' E2]. rewrite app_nil_r in E2. rewrite E2. cbn [mix_loop].
    apply (IH s' s1 s2); [intros a b kw [Q|Q]; apply K; [left; cbn; apply in_or_app; now right|now right]|exact L|exact L2].
Qed.
End Root.

Lemma reads_tame {E} valid (value : string -> E -> Qc) xs vs : reads_r valid value xs vs -> reads (passes valid) value (map tame xs) vs.
Proof.
  induction 1 as [|x v xs vs [N G] R IH]; cbn; constructor; [|exact IH]. split; [exact N|]. intro e. destruct (G e) as [A B].
  split; [|exact B]. unfold passes. cbn [tame ex_valid]. rewrite A. destruct (valid v e); reflexivity.
Qed.
Lemma tested_ext {E F} vs (f : string -> E -> res bool) (g : string -> F -> res bool) e e' : (forall v, In v vs -> f v e = g v e') -> tested vs f e = tested vs g e'.
Proof. intro H. induction vs as [|v vs IH]; cbn [tested]; [reflexivity|]. rewrite (H v (or_introl eq_refl)), IH by (intros; apply H; now right). reflexivity. Qed.

Section RootInto.
Variables D V : Type.
Variable evs : D -> list V.
Variable factory : string -> res (extractor (D * option V)).
Variable valid : string -> D * option V -> res bool.
Variable value : string -> D * option V -> Qc.
Notation names s := (map fst (s_cfg s)).

Lemma root_raises_mc bipo pre d x post s :
  wf_spectra s -> s_cfg s <> [] -> extracts_r (s_cfg s) factory valid value ->
  (forall v, In v (names s) -> is_mc v = true) -> (bipo = true -> length (evs d) = 1%nat) ->
  (forall d', In d' (single_ev evs bipo pre) -> exists b, tested (names s) (of_entry valid) d' = Ok b) ->
  tested (names s) (of_entry valid) d = Err x ->
  exists s', append_from_root evs factory bipo (pre ++ d :: post)%list s = (s', Some x) /\
    counts (usable (s_cfg s) (of_entry (passes valid)) (of_entry value)) (of_entry value) (single_ev evs bipo pre) (decayed bipo (pre ++ d :: post)%list s) s'.
Proof.
  intros W Nc X T B K H. unfold append_from_root, root_into. cbn [s_cfg with_decays]. unfold get_pars, dkeys.
  destruct (root_reads factory valid value (names s) X (fun v Hv => or_introl (T v Hv)) false false) as (xs & -> & R & Kx).
  rewrite !orb_false_l.
  rewrite (existsb_false is_reco) by (intros v Hv; apply mc_not_reco, T, Hv). rewrite andb_false_r.
  assert (existsb is_mc (names s) = true) as ->.
  { destruct (s_cfg s) as [|vp c]; [congruence|]. cbn. rewrite (T (fst vp)) by (left; reflexivity). reflexivity. }
  change (if bipo then with_bipo (with_decays s (s_decays s + nq (length (pre ++ d :: post)%list))%Qc) 1 else with_decays s (s_decays s + nq (length (pre ++ d :: post)%list))%Qc) with (decayed bipo (pre ++ d :: post)%list s).
  set (s0 := decayed bipo _ s). assert (W0 : wf_spectra s0) by (unfold s0, decayed; destruct bipo; exact W). assert (C0 : s_cfg s0 = s_cfg s) by (unfold s0, decayed; destruct bipo; reflexivity).
  destruct (root_mc_counts D V evs (s_cfg s) (passes valid) value (map tame2 xs)) with (bipo := bipo) (ds := pre) (s := s0) as (s' & L & C); [rewrite snd_tame; now apply reads_tame|exact W0|exact C0|].
  assert (Q : forall d', match tested (names s) (of_entry valid) d' with Ok b => exists kw', extract (map snd xs) (d', None) [] = Ok (kw', b) | Err x => extract (map snd xs) (d', None) [] = Err x end).
  { intro d'. rewrite (tested_ext _ _ valid d' (d', None)) by reflexivity. exact (extract_tested valid value _ _ (d', None) R []). }
  exists s'. split; [|exact C]. apply root_mc_stop; [exact B| | |exact L].
  - specialize (Q d). rewrite H in Q. exact Q.
  - intros d' I. destruct (K d' I) as [b Eb]. specialize (Q d'). rewrite Eb in Q. destruct Q as [kw' Q]. eauto.
Qed.
Lemma root_raises_ev bipo pre d vpre v vpost x post s :
  wf_spectra s -> extracts_r (s_cfg s) factory valid value ->
  (forall v, In v (names s) -> is_mc v = true \/ is_reco v = true) ->
  (exists v, In v (names s) /\ is_reco v = true) -> (bipo = true -> length (evs d) = 1%nat) -> evs d = (vpre ++ v :: vpost)%list ->
  (forall t, In t (triggers evs (single_ev evs bipo pre) ++ map (fun v => (d, v)) vpre)%list -> exists b, tested (names s) (of_trigger valid) t = Ok b) ->
  tested (names s) (of_trigger valid) (d, v) = Err x ->
  exists s', append_from_root evs factory bipo (pre ++ d :: post)%list s = (s', Some x) /\
    counts (usable (s_cfg s) (of_trigger (passes valid)) (of_trigger value)) (of_trigger value)
      (triggers evs (single_ev evs bipo pre) ++ map (fun v => (d, v)) vpre)%list (decayed bipo (pre ++ d :: post)%list s) s'.
Proof.
  intros W X T (w & Hw & Rw) B Ev K H. unfold append_from_root, root_into. cbn [s_cfg with_decays]. unfold get_pars, dkeys.
  destruct (root_reads factory valid value (names s) X T false false) as (xs & -> & R & Kx).
  rewrite !orb_false_l. assert (existsb is_reco (names s) = true) as -> by (apply existsb_exists; exists w; auto). rewrite andb_true_r.
  change (if bipo then with_bipo (with_decays s (s_decays s + nq (length (pre ++ d :: post)%list))%Qc) 1 else with_decays s (s_decays s + nq (length (pre ++ d :: post)%list))%Qc) with (decayed bipo (pre ++ d :: post)%list s).
  set (s0 := decayed bipo _ s). assert (W0 : wf_spectra s0) by (unfold s0, decayed; destruct bipo; exact W). assert (C0 : s_cfg s0 = s_cfg s) by (unfold s0, decayed; destruct bipo; reflexivity).
  assert (Rt : reads (passes valid) value (map snd (map tame2 xs)) (names s)) by (rewrite snd_tame; now apply reads_tame).
  assert (Kt : map fst (map tame2 xs) = names s) by (rewrite map_map; exact Kx).
  destruct (existsb is_mc (names s)) eqn:M.
  - destruct (root_mix_counts D V evs (s_cfg s) (passes valid) value) with (xs := map tame2 xs) (bipo := bipo) (ds := pre) (s := s0) as (s1 & L1 & C1); [exact Rt|exact Kt|exact W0|exact C0|].
    assert (W1 := counts_wf _ _ _ _ _ C1 W0). assert (C1c : s_cfg s1 = s_cfg s) by (destruct C1 as (_ & _ & C1 & _); congruence).
    destruct (mix_loop_counts D V evs (s_cfg s) (passes valid) value) with (xs := map tame2 xs) (d := d) (vs := vpre) (kw := @nil (string * Qc)) (s := s1) as (s2 & L2 & C2); [exact Rt|exact Kt|exact W1|exact C1c|intros k []|].
    exists s2. split; [|now apply counts_app with s1].
    assert (Q : forall t kw, match tested (names s) (of_trigger valid) t with Ok b => exists kw', extract_mix xs (fst t) (snd t) kw = Ok (kw', b) | Err x => extract_mix xs (fst t) (snd t) kw = Err x end).
    { intros [d' v'] kw. cbn [fst snd]. apply (extract_mix_tested D V valid value); [exact R|exact Kx]. }
    apply root_mix_stop with (1 := B) (2 := Ev) (s1 := s1); [| |exact L1|exact L2].
    + intro kw. specialize (Q (d, v) kw). rewrite H in Q. exact Q.
    + intros d' v' kw I. destruct (K (d', v')) as [b Eb].
      { apply in_or_app. destruct I as [I|[-> I]]; [now left|right; now apply in_map]. }
      specialize (Q (d', v') kw). rewrite Eb in Q. destruct Q as [kw' Q]. eauto.
  - assert (All : forall u, In u (names s) -> is_reco u = true).
    { intros u Hu. destruct (T u Hu) as [A|A]; [|exact A]. exfalso. assert (existsb is_mc (names s) = true) by (apply existsb_exists; exists u; auto). congruence. }
    destruct (root_ev_counts D V evs (s_cfg s) (passes valid) value (map tame2 xs) Rt bipo) with (ds := pre) (s := s0) as (s1 & L1 & C1); [exact All|exact W0|exact C0|].
    assert (W1 := counts_wf _ _ _ _ _ C1 W0). assert (C1c : s_cfg s1 = s_cfg s) by (destruct C1 as (_ & _ & C1 & _); congruence).
    destruct (ev_loop_counts D V (s_cfg s) (passes valid) value (map tame2 xs) Rt) with (d := d) (vs := vpre) (s := s1) as (s2 & L2 & C2); [exact All|exact W1|exact C1c|].
    exists s2. split; [|now apply counts_app with s1].
    assert (Q : forall t, match tested (names s) (of_trigger valid) t with Ok b => exists kw', extract (map snd xs) (fst t, Some (snd t)) [] = Ok (kw', b) | Err x => extract (map snd xs) (fst t, Some (snd t)) [] = Err x end).
    { intros [d' v']. cbn [fst snd]. rewrite (tested_ext _ _ valid (d', v') (d', Some v')); [apply (extract_tested valid value _ _ _ R)|].
      intros u Hu. unfold of_trigger. specialize (All u Hu). unfold is_reco in All. rewrite All. reflexivity. }
    apply root_ev_stop with (1 := B) (2 := Ev) (s1 := s1); [| |exact L1|exact L2].
    + specialize (Q (d, v)). rewrite H in Q. exact Q.
    + intros d' v' I. destruct (K (d', v')) as [b Eb].
      { apply in_or_app. destruct I as [I|[-> I]]; [now left|right; now apply in_map]. }
      specialize (Q (d', v')). rewrite Eb in Q. destruct Q as [kw' Q]. eauto.
Qed.
End RootInto.

(** New spectra from ROOT files. *)
Lemma root_new {D V} (evs : D -> list V) factory c name (bipo : bool) (ds : list D) : wf_cfg c -> name <> EmptyString ->
  exists s0, new_spectra name (nq (length ds)) c None = Ok s0 /\ wf_spectra (with_decays s0 0%Qc) /\ s_cfg s0 = c /\ s_bipo s0 = 0%Z /\
    (if bipo then with_bipo s0 1 else s0) = decayed bipo ds (with_decays s0 0%Qc) /\
    fill_from_root evs factory name (Some c) bipo ds = match append_from_root evs factory bipo ds (with_decays s0 0%Qc) with (s, None) => Ok s | (_, Some x) => Err x end.
Proof.
  intros W N. destruct (new_spectra_ok name (nq (length ds)) c None W) as (s0 & E0 & W0 & Ec & Ed & _).
  assert (Q : with_decays (with_decays s0 0%Qc) (s_decays (with_decays s0 0%Qc) + nq (length ds))%Qc = s0).
  { destruct s0. cbn in *. subst. unfold with_decays. cbn. f_equal. ring. }
  exists s0. split; [exact E0|]. split; [exact W0|]. split; [exact Ec|]. split; [|split].
  - unfold new_spectra in E0. destruct (forallb _ _); [|discriminate]. injection E0 as <-. reflexivity.
  - unfold decayed. rewrite Q. reflexivity.
  - unfold fill_from_root, append_from_root. rewrite Q. destruct (String.eqb_spec name ""); [contradiction|]. rewrite E0. reflexivity.
Qed.
Lemma new_result_of {E D} P (value : string -> E -> Qc) l name c (bipo : bool) (ds : list D) s0 s : wf_cfg c -> new_spectra name (nq (length ds)) c None = Ok s0 -> s_bipo s0 = 0%Z ->
  (if bipo then with_bipo s0 1 else s0) = decayed bipo ds (with_decays s0 0%Qc) -> counts P value l (decayed bipo ds (with_decays s0 0%Qc)) s ->
  new_result P value l name (nq (length ds)) c bipo s.
Proof.
  intros W E0 B <- C. assert (C0 : counts P value l s0 (with_bipo s 0)).
  { destruct C as (A1 & A2 & A3 & A4 & A5 & A6 & A7 & A8 & A9 & A10). unfold counts. destruct bipo; cbn in *; repeat split; try assumption; congruence. }
  destruct (new_counts P value l name _ c None s0 _ W E0 C0) as (N1 & N2 & N3 & N4 & N5 & N6 & N7). unfold new_result. repeat split; try assumption.
  destruct C as (_ & _ & _ & _ & A5 & _). rewrite A5. destruct bipo; [reflexivity|exact B].
Qed.
Lemma root_new_mc {D V} (evs : D -> list V) factory c valid value name bipo ds : wf_cfg c -> c <> [] -> name <> EmptyString -> extracts c factory valid value ->
  (forall v, In v (map fst c) -> is_mc v = true) ->
  exists s, fill_from_root evs factory name (Some c) bipo ds = Ok s /\
    new_result (usable c (of_entry valid) (of_entry value)) (of_entry value) (single_ev evs bipo ds) name (nq (length ds)) c bipo s.
Proof.
  intros W Nc N X T. destruct (root_new evs factory c name bipo ds W N) as (s0 & E0 & W0 & Ec & B & Q & F). subst c.
  destruct (append_root_mc D V evs factory valid value bipo ds (with_decays s0 0%Qc) W0 Nc X T) as (s & A & C). rewrite A in F.
  exists s. split; [exact F|]. now apply new_result_of with s0.
Qed.
Lemma root_new_ev {D V} (evs : D -> list V) factory c valid value name bipo ds : wf_cfg c -> name <> EmptyString -> extracts c factory valid value ->
  (forall v, In v (map fst c) -> is_mc v = true \/ is_reco v = true) -> (exists v, In v (map fst c) /\ is_reco v = true) ->
  exists s, fill_from_root evs factory name (Some c) bipo ds = Ok s /\
    new_result (usable c (of_trigger valid) (of_trigger value)) (of_trigger value) (triggers evs (single_ev evs bipo ds)) name (nq (length ds)) c bipo s.
Proof.
  intros W N X T R. destruct (root_new evs factory c name bipo ds W N) as (s0 & E0 & W0 & Ec & B & Q & F). subst c.
  destruct (append_root_ev D V evs factory valid value bipo ds (with_decays s0 0%Qc) W0 X T R) as (s & A & C). rewrite A in F.
  exists s. split; [exact F|]. now apply new_result_of with s0.
Qed.

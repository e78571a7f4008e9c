(** Fits while the signal is scaled, removed and put back. *)
From Coq Require Import Lia Permutation.
From Verif Require Import Model.Base Model.PyStr Model.NDArray Model.Param Model.Config Model.Spectra
  Model.Smear Model.Shift Model.Heap Model.Minimise Model.Fit.
From Verif Require Import Spec.AxisSpec Spec.ArraySpec Spec.SpectraSpec Spec.ShrinkSpec Spec.HeapSpec Spec.SearchSpec Spec.FitRunSpec Spec.FitLimitSpec.
From Verif Require Import Proofs.QcLemmas Proofs.NDArrayLemmas Proofs.StrLemmas Proofs.DictLemmas Proofs.ParamLemmas
  Proofs.OpsLemmas Proofs.ExtLemmas Proofs.DeriveExt Proofs.HeapLemmas Proofs.MinimiseLemmas Proofs.FitLemmas Proofs.FitPrep Proofs.FitRun Proofs.HomogLemmas.

Section Scan.
Context (ft0 : fit) (sp : part) (h0 : heap) (V : Qc -> Prop) (d s0 : spectra).
(** The fit with its signal and without. *)
Definition fx (b : bool) : fit :=
  Fit (ft_str ft0) (ft_pars ft0) (ft_data ft0) (ft_data_pars ft0) (ft_fixed ft0) (ft_floating ft0) (if b then Some sp else None).
Notation ps := (ft_pars ft0).
Notation G := (global_pars ft0).
Hypothesis PR : prepared (fx true) h0.
Hypothesis DP : distinct_printing ft0 V.
Hypothesis AD : abs h0 (ft_data ft0) = Some d.
Hypothesis WD : wf_spectra d.
Hypothesis RD : forall p, In p (ft_floating ft0) \/ (G <> [] /\ p = sp) -> exists s, abs h0 (pt_ref p) = Some s /\ fit_ready d s.
Hypothesis AS : abs h0 (pt_ref sp) = Some s0.
Hypothesis SD : pt_ref sp <> ft_data ft0.
Hypothesis SF : forall r pars, ft_fixed ft0 = Some (r, pars) -> pt_ref sp <> r.
Hypothesis CM : forall i p, In i G -> nth_error ps i = Some p -> commutes (q_kind p).

Definition entry : Type := bool * nat * list nat * spectra.
Definition e_sg (x : entry) : bool := fst (fst (fst x)).
Definition e_ref (x : entry) : nat := snd (fst (fst x)).
Definition e_own (x : entry) : list nat := snd (fst x).
Definition e_base (x : entry) : spectra := snd x.

(** The normalisations the signal takes. *)
Definition level (m : spectra) : Prop := m = s0 \/ exists n, (0 < n / s_decays s0)%Qc /\ scale n s0 = (m, None).
Definition sorbit (B c : spectra) : Prop :=
  same_spectra c B \/ exists n s1, n <> 0%Qc /\ scale n B = (s1, None) /\ same_spectra c s1.
Definition eorbit (x : entry) (c : spectra) : Prop :=
  if e_sg x then sorbit (e_base x) c else orbit ps (e_own x) (e_base x) c.

Definition is_part (sg : bool) (p : part) : Prop := if sg then p = sp else In p (ft_floating ft0).
Definition conv_of (sg : bool) (s : spectra) (args : list Qc) : res spectra :=
  if sg then apply_last ps args G s s else apply_values ps args G s.
Definition conv (sg : bool) (p : part) (args : list Qc) : res spectra := do s <- shown h0 (pt_ref p); conv_of sg s args.

Record inv (m : spectra) (L : list entry) (st : fstate) : Prop := Inv {
  i_wf : wf_heap (fs_heap st);
  i_cur : length (fs_cur st) = length ps;
  i_frame : frame (fun r => In r (map e_ref L) \/ r = pt_ref sp) h0 (fs_heap st);
  i_nodup : NoDup (map e_ref L);
  i_apart : forall r, In r (map e_ref L) -> r <> ft_data ft0 /\ (forall q pars, ft_fixed ft0 = Some (q, pars) -> r <> q) /\
              r <> pt_ref sp /\ (G <> [] -> length (h_objs h0) <= r);
  i_live : forall x, In x L -> fit_ready d (e_base x) /\ exists c, abs (fs_heap st) (e_ref x) = Some c /\ eorbit x c;
  i_float : G = [] -> forall p, In p (ft_floating ft0) -> exists s, abs h0 (pt_ref p) = Some s /\ In (false, pt_ref p, pt_own p, s) L;
  i_cache : forall name dd key r own, dget name (fs_cache st) = Some dd -> dget key dd = Some (r, own) ->
      exists sg p args B, is_part sg p /\ name_of h0 p = Some name /\ key = cur_val ft0 (map Some args) G /\ good_args ft0 V args /\
        own = pt_own p /\ conv sg p args = Ok B /\ In (sg, r, own, B) L;
  i_level : level m;
  i_signal : exists c, abs (fs_heap st) (pt_ref sp) = Some c /\ same_spectra c m }.

Lemma cur_val_fx b cur : forall l, cur_val (fx b) cur l = cur_val ft0 cur l.
Proof. induction l as [|i l IH]; [reflexivity|]. cbn [cur_val fx ft_pars ft_str]. now rewrite IH. Qed.

Lemma prepared_fx b : prepared (fx b) h0.
Proof.
  destruct b; [exact PR|]. destruct PR as [a1 a2 (d1 & a3 & a4 & a5) a6 a7 a8 a9 a10 a11 a12 a13 a14]. constructor; try assumption; try discriminate.
  - exists d1. split; [exact a3|]. split; [exact a4|]. intros p [K|[_ K]]; [apply a5; now left|discriminate].
  - intro GN. destruct (a14 GN) as [N1 N2]. unfold all_parts in *. cbn [fx ft_signal ft_floating] in *. rewrite map_app in N1, N2. rewrite app_nil_r. split.
    + now apply NoDup_app_left in N1.
    + intro K. apply N2, in_or_app. now left.
Qed.
Lemma SE : all_see ps. Proof. intros p I. exact (pr_sees _ h0 PR p I). Qed.
Lemma DV : derives ps G. Proof. intros i p I P. exact (pr_global _ h0 PR i p I P). Qed.
Lemma decays0 : G <> [] -> s_decays s0 <> 0%Qc.
Proof. intro N. destruct (pr_signal _ _ PR sp eq_refl) as (s & A & K). assert (s = s0) as -> by congruence. exact (K N). Qed.
Lemma scale_decays n s t : scale n s = (t, None) -> s_decays t = n /\ s_decays s <> 0%Qc /\ s_cfg t = s_cfg s /\ ashape (s_data t) = ashape (s_data s) /\ s_name t = s_name s /\ s_bg t = s_bg s.
Proof.
  intro E. assert (N : s_decays s <> 0%Qc) by (intro K; rewrite scale_zero_l in E by exact K; discriminate).
  unfold scale in E. rewrite qdiv_ok in E by exact N. injection E as <-. repeat split; exact N.
Qed.
Lemma scale_ok n s : s_decays s <> 0%Qc -> exists t, scale n s = (t, None).
Proof. intro N. unfold scale. rewrite qdiv_ok by exact N. eexists. reflexivity. Qed.
Lemma scale_own s : s_decays s <> 0%Qc -> exists t, scale (s_decays s) s = (t, None) /\ same_spectra t s.
Proof.
  intro D. unfold scale. rewrite qdiv_ok by exact D. eexists. split; [reflexivity|]. split; [repeat split|]. intros idx _. cbn. field. exact D.
Qed.
Lemma level_kept m : level m -> s_cfg m = s_cfg s0 /\ ashape (s_data m) = ashape (s_data s0) /\ s_name m = s_name s0 /\ s_bg m = s_bg s0 /\ (s_decays s0 <> 0%Qc -> s_decays m <> 0%Qc).
Proof.
  intros [->|(n & P & E)]; [auto|]. destruct (scale_decays _ _ _ E) as (E1 & E2 & E3 & E4 & E5 & E6). repeat (split; [assumption|]).
  intros _. rewrite E1. intros ->. revert P. unfold Qcdiv. replace (0 * / s_decays s0)%Qc with 0%Qc by ring. intro P. exact (Qclt_not_eq _ _ P eq_refl).
Qed.
Lemma rate_nonzero n s : (0 < n / s_decays s)%Qc -> n <> 0%Qc.
Proof. intros P ->. revert P. unfold Qcdiv. replace (0 * / s_decays s)%Qc with 0%Qc by ring. intro P. exact (Qclt_not_eq _ _ P eq_refl). Qed.
Lemma orbit_same l B c c' : orbit ps l B c -> same_spectra c' c -> orbit ps l B c'.
Proof.
  intros [H|(F & n & s1 & N & S & H)] E; [left|right]; [eapply same_trans; eassumption|].
  split; [exact F|]. exists n, s1. split; [exact N|]. split; [exact S|]. eapply same_trans; eassumption.
Qed.
Lemma sorbit_same B c c' : sorbit B c -> same_spectra c' c -> sorbit B c'.
Proof.
  intros [H|(n & s1 & N & S & H)] E; [left; eapply same_trans; eassumption|right]. exists n, s1. repeat (split; [assumption|]). eapply same_trans; eassumption.
Qed.
Lemma eorbit_same x c c' : eorbit x c -> same_spectra c' c -> eorbit x c'.
Proof. unfold eorbit. destruct (e_sg x); [apply sorbit_same|apply orbit_same]. Qed.

(** ** A transformed signal at another normalisation *)
Lemma last_scaled n m args : (0 < n / s_decays s0)%Qc -> scale n s0 = (m, None) -> forall l, incl l G -> forall t t', s_decays t = s_decays s0 ->
  (exists u, scale n t = (u, None) /\ same_spectra t' u) ->
  match apply_last ps args l m t', apply_last ps args l s0 t with
  | Ok y, Ok B => exists u, scale n B = (u, None) /\ same_spectra y u
  | Err e, Err f => e = f
  | _, _ => False
  end.
Proof.
  intros P SC. induction l as [|i l IH]; intros Il t t' Dt H; [exact H|]. cbn [apply_last apply_values].
  destruct (nth_error ps i) as [p|] eqn:Pi; [|reflexivity]. destruct (nth_error args i) as [v|]; [|reflexivity].
  pose proof (CM i p (Il i (or_introl eq_refl)) Pi v n s0 P) as K. rewrite SC in K. cbn [done rbind] in K.
  destruct (DV i p (Il i (or_introl eq_refl)) Pi) as (f & Kd).
  destruct (apply_value (q_kind p) v m) as [a|e]; destruct (apply_value (q_kind p) v s0) as [b|e'] eqn:Eb; cbn [rbind] in *.
  - apply apply_value_kept in Eb as (_ & _ & Db). assert (D : s_decays b = s_decays s0) by (apply Db; congruence).
    apply (IH (fun j J => Il j (or_intror J)) b a D). destruct (scale n b) as [u [e|]]; cbn in K; [contradiction|]. now exists u.
  - contradiction.
  - apply apply_value_kept in Eb as (_ & _ & Db). assert (D : s_decays b = s_decays s0) by (apply Db; congruence).
    destruct (scale_ok n b) as (u & E). { rewrite D. exact (positive_ratio _ _ P). } rewrite E in K. contradiction.
  - exact K.
Qed.
Lemma level_conv m args : level m -> match apply_last ps args G m m, apply_last ps args G s0 s0 with
  | Ok y, Ok B => sorbit B y
  | Err e, Err f => e = f
  | _, _ => False
  end.
Proof.
  intros [->|(n & P & E)].
  - destruct (apply_last ps args G s0 s0); [left; apply same_refl|reflexivity].
  - pose proof (last_scaled n m args P E G (incl_refl _) s0 m eq_refl (ex_intro _ m (conj E (same_refl _)))) as K.
    destruct (apply_last ps args G m m), (apply_last ps args G s0 s0); try exact K. destruct K as (u & K1 & K2). right. exists n, u.
    split; [exact (rate_nonzero n s0 P)|auto].
Qed.

(** ** Steps that keep the invariant *)
Lemma inv_step_gen m m' L st st' (X : nat -> Prop) : inv m L st -> fs_cache st' = fs_cache st -> length (fs_cur st') = length (fs_cur st) -> wf_heap (fs_heap st') ->
  frame X (fs_heap st) (fs_heap st') ->
  (forall x, In x L -> ~ X (e_ref x) \/ exists c, abs (fs_heap st') (e_ref x) = Some c /\ eorbit x c) ->
  (forall r, X r -> r < length (h_objs h0) -> In r (map e_ref L) \/ r = pt_ref sp) ->
  level m' -> (exists c, abs (fs_heap st') (pt_ref sp) = Some c /\ same_spectra c m') -> inv m' L st'.
Proof.
  intros [I1 I2 I3 I4 I5 I6 I7 I8 I9 I10] Ca Cu W F K S Lm Sm. constructor; auto; try congruence.
  - destruct I3 as [a b c e f], F as [a' b' c' e' f']. constructor; auto; [|lia]. intros r o N H. apply e'; [|now apply e].
    intro K'. apply N, S; [exact K'|now apply nth_some_lt in H].
  - intros x I. destruct (I6 x I) as (R & c & A & O). split; [exact R|].
    destruct (K x I) as [D|D]; [|exact D]. exists c. split; [|exact O]. now apply (abs_frame X (fs_heap st)).
  - intros name dd key r own. rewrite Ca. apply I8.
Qed.
Lemma inv_step m L st st' (X : nat -> Prop) : inv m L st -> fs_cache st' = fs_cache st -> length (fs_cur st') = length (fs_cur st) -> wf_heap (fs_heap st') ->
  frame X (fs_heap st) (fs_heap st') ->
  (forall x, In x L -> ~ X (e_ref x) \/ exists c, abs (fs_heap st') (e_ref x) = Some c /\ eorbit x c) ->
  (forall r, X r -> r < length (h_objs h0) -> In r (map e_ref L)) -> ~ X (pt_ref sp) -> inv m L st'.
Proof.
  intros I Ca Cu W F K S N. apply (inv_step_gen m m L st st' X I Ca Cu W F K).
  - intros r H1 H2. left. now apply S.
  - exact (i_level _ _ _ I).
  - destruct (i_signal _ _ _ I) as (c & A & E). exists c. split; [|exact E]. now apply (abs_frame X (fs_heap st)).
Qed.
Lemma entry_unique L (x y : entry) : NoDup (map e_ref L) -> In x L -> In y L -> e_ref x = e_ref y -> x = y.
Proof.
  induction L as [|z L IH]; cbn; intros N I J E; [destruct I|]. inversion N as [|a b Na Nb]; subst.
  destruct I as [->|I], J as [->|J]; auto; exfalso; apply Na; [rewrite E|rewrite <- E]; now apply in_map.
Qed.
Lemma eorbit_ready x c : fit_ready d (e_base x) -> eorbit x c -> fit_ready d c.
Proof.
  intros R O. assert (K : s_cfg c = s_cfg (e_base x) /\ ashape (s_data c) = ashape (s_data (e_base x))).
  { unfold eorbit in O. assert (Q : same_spectra c (e_base x) \/ exists n s1, n <> 0%Qc /\ scale n (e_base x) = (s1, None) /\ same_spectra c s1).
    { destruct (e_sg x); [exact O|]. destruct O as [O|(_ & O)]; auto. }
    destruct Q as [Q|(n & s1 & _ & E & Q)].
    - destruct Q as [(_ & _ & K & _ & _ & _ & _ & S) _]. auto.
    - destruct Q as [(_ & _ & K & _ & _ & _ & _ & S) _]. destruct (scale_decays _ _ _ E) as (_ & _ & E1 & E2 & _). split; congruence. }
  now apply (ready_same d (e_base x)).
Qed.
(** The spectra the fit may not touch are as they were. *)
Lemma untouched m L st r s : inv m L st -> ~ In r (map e_ref L) -> r <> pt_ref sp -> abs h0 r = Some s -> abs (fs_heap st) r = Some s.
Proof. intros I N N' A. apply (abs_frame _ _ _ _ _ (i_frame _ _ _ I)); [|exact A]. now intros [K|K]. Qed.
Lemma data_there m L st : inv m L st -> abs (fs_heap st) (ft_data ft0) = Some d.
Proof. intro I. apply (untouched m L); [exact I| |congruence|exact AD]. intro K. now destruct (i_apart _ _ _ I _ K) as (K1 & _). Qed.
Lemma fixed_there m L st r pars s : inv m L st -> ft_fixed ft0 = Some (r, pars) -> abs h0 r = Some s -> abs (fs_heap st) r = Some s.
Proof.
  intros I F A. apply (untouched m L); [exact I| | |exact A].
  - intro K. destruct (i_apart _ _ _ I _ K) as (_ & K1 & _). now apply (K1 r pars).
  - intro K. apply (SF r pars F). congruence.
Qed.
Lemma original_there m L st p s : inv m L st -> G <> [] -> In p (ft_floating ft0) -> abs h0 (pt_ref p) = Some s -> abs (fs_heap st) (pt_ref p) = Some s.
Proof.
  intros I F Ip A. apply (untouched m L); [exact I| | |exact A].
  - intro K. destruct (i_apart _ _ _ I _ K) as (_ & _ & _ & K1). specialize (K1 F). apply abs_lt in A. lia.
  - intro E. apply (pr_signal_apart _ _ PR sp eq_refl). cbn [fx ft_floating]. rewrite <- E. now apply in_map.
Qed.

(** One use of a live spectrum: its own parameters, the axes of the data. *)
Definition use (b : bool) (r : nat) (l : list nat) : M nat := let! r' := apply_all (fx b) l r in let! _ := match_data (fx b) r' in mret r'.
Lemma match_live b m L st sg r own B : inv m L st -> In (sg, r, own, B) L -> forall c, abs (fs_heap st) r = Some c ->
  exists st', match_data (fx b) r st = (st', Ok tt) /\ inv m L st' /\ fs_cur st' = fs_cur st /\ exists s', abs (fs_heap st') r = Some s' /\ same_spectra s' c.
Proof.
  intros I J c A. destruct (i_live _ _ _ I _ J) as (R & c' & A' & O). assert (c' = c) as -> by (cbn in A'; congruence). clear A'.
  pose proof (in_map e_ref _ _ J) as Jr. destruct (i_apart _ _ _ I r Jr) as (Nr & _ & Ns & _).
  destruct (match_data_ran (fx b) r st d c (i_wf _ _ _ I) Nr (data_there _ _ _ I) A WD (eorbit_ready _ _ R O)) as (st' & E & Ca & Cu & W & F & s' & As & Ss).
  exists st'. split; [exact E|]. split; [|split; [exact Cu|now exists s']].
  apply (inv_step m L st st' (eq r) I Ca); [now rewrite Cu|exact W|exact F| | |exact Ns].
  - intros x Ix. destruct (Nat.eq_dec r (e_ref x)) as [Ex|Nx]; [right|left; exact Nx].
    assert (x = (sg, r, own, B)) as -> by (apply (entry_unique L); [exact (i_nodup _ _ _ I)|exact Ix|exact J|now symmetry]).
    cbn. exists s'. split; [exact As|]. now apply eorbit_same with c.
  - intros q <- _. exact Jr.
Qed.
Lemma match_new b m L st r s : inv m L st -> ~ In r (map e_ref L) -> length (h_objs h0) <= r -> abs (fs_heap st) r = Some s -> fit_ready d s ->
  exists st', match_data (fx b) r st = (st', Ok tt) /\ inv m L st' /\ fs_cur st' = fs_cur st /\ exists s', abs (fs_heap st') r = Some s' /\ same_spectra s' s.
Proof.
  intros I N Ge A R. pose proof (abs_lt _ _ _ AD) as Ld. pose proof (abs_lt _ _ _ AS) as Ls.
  destruct (match_data_ran (fx b) r st d s (i_wf _ _ _ I) ltac:(cbn; lia) (data_there _ _ _ I) A WD R) as (st' & E & Ca & Cu & W & F & s' & As & Ss).
  exists st'. split; [exact E|]. split; [|split; [exact Cu|now exists s']].
  apply (inv_step m L st st' (eq r) I Ca); [now rewrite Cu|exact W|exact F| | |lia].
  - intros x Ix. left. intros ->. now apply N, in_map.
  - intros q <- K. lia.
Qed.
Lemma use_live b m L st r own B args : inv m L st -> In (false, r, own, B) L -> fs_cur st = map Some args -> good_args ft0 V args ->
  inv m L (fst (use b r own st)) /\ fs_cur (fst (use b r own st)) = fs_cur st /\
  match snd (use b r own st), apply_values ps args own B with
  | Ok r', Ok s => exists s', abs (fs_heap (fst (use b r own st))) r' = Some s' /\ same_spectra s' s
  | Err e, Err f => e = f
  | _, _ => False
  end.
Proof.
  intros I J C (_ & _ & NZ). destruct (i_live _ _ _ I _ J) as (R & c & A & O). cbn in A, O, R.
  pose proof (in_map e_ref _ _ J) as Jr. destruct (i_apart _ _ _ I r Jr) as (_ & _ & Ns & _).
  destruct (apply_all_ran (fx b) args own SE NZ r st c B (i_wf _ _ _ I) C A O) as (Ra & c1 & A1 & O1).
  assert (I1 : inv m L (fst (apply_all (fx b) own r st))).
  { destruct Ra as (Ca & Cu & W & F & _). apply (inv_step m L st _ (fun x => r = x /\ first_rate ps own) I Ca); [now rewrite Cu|exact W|exact F| | |].
    - intros x Ix. destruct (Nat.eq_dec r (e_ref x)) as [Ex|Nx]; [right|left; intros [K _]; congruence].
      assert (x = (false, r, own, B)) as -> by (apply (entry_unique L); [exact (i_nodup _ _ _ I)|exact Ix|exact J|now symmetry]).
      exists c1. auto.
    - intros q [<- _] _. exact Jr.
    - intros [K _]. congruence. }
  unfold use, mbind, mret. destruct (apply_all (fx b) own r st) as [st1 [r1|e1]] eqn:EA; cbn [fst snd] in *.
  2:{ destruct Ra as (Ca & Cu & W & F & K). cbn [fst snd] in *. split; [exact I1|]. split; [exact Cu|exact K]. }
  destruct Ra as (Ca & Cu & W & F & K). cbn [fst snd fx ft_pars] in *.
  destruct (apply_values ps args own B) as [s1|] eqn:Ev; [|contradiction]. destruct K as (K & s' & As & Ss).
  assert (M : exists st', match_data (fx b) r1 st1 = (st', Ok tt) /\ inv m L st' /\ fs_cur st' = fs_cur st1 /\ exists s2, abs (fs_heap st') r1 = Some s2 /\ same_spectra s2 s').
  { destruct K as [->|K]; [exact (match_live b m L st1 false r own B I1 J s' As)|].
    pose proof (f_len _ _ _ (i_frame _ _ _ I)). apply (match_new b m L st1 r1 s' I1); [|lia|exact As|].
    - intro Ir. apply in_map_iff in Ir as (x & <- & Ix). destruct (i_live _ _ _ I _ Ix) as (_ & z & Az & _). apply abs_lt in Az. lia.
    - apply apply_values_kept in Ev as [E1 E2]. destruct Ss as [(_ & _ & E3 & _ & _ & _ & _ & E4) _].
      apply (ready_same d B); [exact R|congruence|congruence]. }
  destruct M as (st2 & E2 & I2 & C2 & s2 & A2 & S2). rewrite E2. cbn [fst snd]. split; [exact I2|]. split; [congruence|].
  exists s2. split; [exact A2|]. eapply same_trans; eassumption.
Qed.

(** ** The dictionary of convolved spectra *)
Definition make (b sg : bool) (p : part) : M nat := if sg then apply_each (fx b) G (pt_ref p) (pt_ref p) else apply_all (fx b) G (pt_ref p).
Lemma inv_add m L st name dd key r p sg args B c : inv m L st -> G <> [] -> length (h_objs h0) <= r -> ~ In r (map e_ref L) ->
  abs (fs_heap st) r = Some c -> eorbit (sg, r, pt_own p, B) c -> fit_ready d B ->
  (forall dd', dget name (fs_cache st) = Some dd' -> dd' = dd) -> (dget name (fs_cache st) = None -> dd = []) ->
  is_part sg p -> name_of h0 p = Some name -> key = cur_val ft0 (map Some args) G -> good_args ft0 V args -> conv sg p args = Ok B ->
  inv m ((sg, r, pt_own p, B) :: L) (fs_with_cache st (dset name (dset key (r, pt_own p) dd) (fs_cache st))).
Proof.
  intros [I1 I2 I3 I4 I5 I6 I7 I8 I9 I10] GN Ge Nr A S R D1 D2 Ip Nm Ke Ga Co. constructor; cbn [fs_with_cache fs_heap fs_cache fs_cur map e_ref e_own e_base fst snd].
  - exact I1.
  - exact I2.
  - apply (frame_weaken (fun q => In q (map e_ref L) \/ q = pt_ref sp)); [intros q _ [K|K]; [left; now right|now right]|exact I3].
  - constructor; [exact Nr|exact I4].
  - intros q [<-|K]; [|now apply I5]. cbn. pose proof (abs_lt _ _ _ AD). pose proof (abs_lt _ _ _ AS). split; [lia|]. split; [|split; [lia|auto]].
    intros q pars F. destruct (pr_fixed _ _ PR _ _ F) as (s & As). apply abs_lt in As. lia.
  - intros x [<-|K]; [|now apply I6]. cbn [e_base e_ref fst snd]. split; [exact R|]. exists c. auto.
  - intro K. congruence.
  - intros n1 dd1 k1 r1 own1 H1 H2. destruct (String.eqb_spec n1 name) as [->|Nn].
    + rewrite dget_dset_same in H1. injection H1 as <-. destruct (String.eqb_spec k1 key) as [->|Nk].
      * rewrite dget_dset_same in H2. injection H2 as <- <-. exists sg, p, args, B. repeat (split; [assumption || reflexivity|]). now left.
      * rewrite dget_dset_other in H2 by congruence.
        destruct (dget name (fs_cache st)) as [dd'|] eqn:Dn; [|rewrite (D2 eq_refl) in H2; discriminate].
        assert (dd' = dd) as -> by now apply D1. destruct (I8 _ _ _ _ _ Dn H2) as (sg' & p' & args' & B' & K1 & K2 & K3 & K4 & K5 & K6 & K7).
        exists sg', p', args', B'. repeat (split; [assumption|]). now right.
    + rewrite dget_dset_other in H1 by congruence. destruct (I8 _ _ _ _ _ H1 H2) as (sg' & p' & args' & B' & K1 & K2 & K3 & K4 & K5 & K6 & K7).
      exists sg', p', args', B'. repeat (split; [assumption|]). now right.
  - exact I9.
  - exact I10.
Qed.
Lemma part_names sg sg' p p' n : G <> [] -> is_part sg p -> is_part sg' p' -> name_of h0 p = Some n -> name_of h0 p' = Some n -> p = p' /\ sg = sg'.
Proof.
  intros GN I I' N N'. destruct (pr_names _ _ PR GN) as [ND _]. unfold all_parts in ND. cbn [fx ft_floating ft_signal] in ND. rewrite map_app in ND. cbn [map] in ND.
  assert (X : forall q, In q (ft_floating ft0) -> name_of h0 q = Some n -> name_of h0 sp = Some n -> False).
  { intros q K E E'. apply (NoDup_remove_2 (map (name_of h0) (ft_floating ft0)) [] (name_of h0 sp)) in ND.
    apply ND. rewrite app_nil_r, E', <- E. now apply in_map. }
  destruct sg, sg'; cbn in I, I'.
  - split; [congruence|reflexivity].
  - exfalso. subst p. exact (X p' I' N' N).
  - exfalso. subst p'. exact (X p I N N').
  - split; [|reflexivity]. apply NoDup_app_left in ND. apply (NoDup_map_inj (name_of h0) (ft_floating ft0)); [exact ND|exact I|exact I'|congruence].
Qed.
Lemma conv_args sg p args args' : good_args ft0 V args -> good_args ft0 V args' -> cur_val ft0 (map Some args) G = cur_val ft0 (map Some args') G -> conv sg p args = conv sg p args'.
Proof.
  intros (L1 & V1 & _) (L2 & V2 & _) K. unfold conv, conv_of. destruct (shown h0 (pt_ref p)); [|reflexivity]. cbn [rbind].
  assert (E : forall i q, In i G -> nth_error ps i = Some q -> nth_error args i = nth_error args' i) by (apply (key_inj ft0 V); [exact DP|exact V1|exact V2|congruence|exact K]).
  destruct sg; [now apply apply_last_args|now apply apply_values_args].
Qed.
Lemma inv_touch m L st name : inv m L st ->
  inv m L (fs_with_cache st (dset name (match dget name (fs_cache st) with Some x => x | None => [] end) (fs_cache st))).
Proof.
  intros [I1 I2 I3 I4 I5 I6 I7 I8 I9 I10]. constructor; auto. cbn [fs_with_cache fs_cache]. intros n1 dd1 k1 r1 own1 H1 H2.
  destruct (String.eqb_spec n1 name) as [->|Nn]; [|rewrite dget_dset_other in H1 by congruence; eapply I8; eassumption].
  rewrite dget_dset_same in H1. destruct (dget name (fs_cache st)) as [x|] eqn:D; injection H1 as <-; [eapply I8; eassumption|discriminate].
Qed.
(** [s] is the spectrum of the part as it is now. *)
Lemma make_ok b sg p st args s c0 : G <> [] -> wf_heap (fs_heap st) -> fs_cur st = map Some args -> good_args ft0 V args -> abs (fs_heap st) (pt_ref p) = Some c0 -> same_spectra c0 s ->
  fs_cache (fst (make b sg p st)) = fs_cache st /\ fs_cur (fst (make b sg p st)) = fs_cur st /\ wf_heap (fs_heap (fst (make b sg p st))) /\
  frame (fun _ => False) (fs_heap st) (fs_heap (fst (make b sg p st))) /\
  match snd (make b sg p st), conv_of sg s args with
  | Ok r', Ok B => length (h_objs (fs_heap st)) <= r' /\ (exists c, abs (fs_heap (fst (make b sg p st))) r' = Some c /\ same_spectra c B) /\ s_cfg B = s_cfg s /\ ashape (s_data B) = ashape (s_data s)
  | Err e, Err f => e = f
  | _, _ => False
  end.
Proof.
  intros GN W C (_ & _ & NZ) A S0. unfold conv_of. destruct sg; cbn [make].
  - destruct (apply_each_ran (fx b) args G SE DV (pt_ref p) st c0 s (pt_ref p) c0 W C A S0 (abs_lt _ _ _ A) A s S0) as (Z1 & Z2 & Z3 & Z4 & Z5).
    refine (conj Z1 (conj Z2 (conj Z3 (conj Z4 _)))). cbn [fx ft_pars] in Z5. destruct (snd _) as [r'|]; destruct (apply_last ps args G s s) as [B|] eqn:E; try contradiction; [|exact Z5].
    destruct Z5 as ([[K _]|Z5] & Z6); [congruence|]. split; [exact Z5|]. split; [exact Z6|].
    destruct (apply_last_kept ft0 args G DV s s B E eq_refl eq_refl eq_refl) as (K1 & K2 & _). auto.
  - destruct (apply_all_ran (fx b) args G SE NZ (pt_ref p) st c0 s W C A (or_introl S0)) as ((Z1 & Z2 & Z3 & Z4 & Z5) & _).
    refine (conj Z1 (conj Z2 (conj Z3 (conj _ _)))).
    + apply (frame_weaken (fun x => pt_ref p = x /\ first_rate ps G)); [|exact Z4]. intros r _ [_ K]. exact (no_first_rate ft0 G DV K).
    + pose proof (fun r' => apply_all_new (fx b) h0 (prepared_fx b) args G GN DV NZ (pt_ref p) st c0 r' W C A) as N'. cbn [fx ft_pars] in Z5.
      destruct (snd _) as [r'|]; destruct (apply_values ps args G s) as [B|] eqn:E; try contradiction; [|exact Z5].
      destruct Z5 as (_ & Z6). split; [now apply N'|]. split; [exact Z6|]. now apply apply_values_kept in E.
Qed.
Lemma make_kept sg s args B : conv_of sg s args = Ok B -> s_cfg B = s_cfg s /\ ashape (s_data B) = ashape (s_data s).
Proof.
  unfold conv_of. destruct sg; intro E; [|now apply apply_values_kept in E].
  now destruct (apply_last_kept ft0 args G DV s s B E eq_refl eq_refl eq_refl) as (K1 & K2 & _).
Qed.
Lemma part_there sg p : G <> [] -> is_part sg p -> exists s n, abs h0 (pt_ref p) = Some s /\ fit_ready d s /\ snd (get_background_name s) = Ok n /\ name_of h0 p = Some n.
Proof.
  intros GN I. assert (J : In p (all_parts (fx true))). { unfold all_parts. apply in_or_app. destruct sg; [right; cbn in I; left; now symmetry|now left]. }
  destruct (RD p) as (s & A & R). { destruct sg; [right; auto|now left]. }
  destruct (pr_names _ _ PR GN) as [_ N]. exists s. unfold name_of. rewrite A. destruct (snd (get_background_name s)) as [n|] eqn:E; [now exists n|].
  exfalso. apply N. apply in_map_iff. exists p. split; [|exact J]. unfold name_of. now rewrite A, E.
Qed.
(** The part as it is now: the floating backgrounds as they were, the signal at its level. *)
Definition now_of (sg : bool) (p : part) (m s : spectra) : spectra := if sg then m else s.
Lemma part_now m L st sg p s : inv m L st -> G <> [] -> is_part sg p -> abs h0 (pt_ref p) = Some s ->
  exists c, abs (fs_heap st) (pt_ref p) = Some c /\ same_spectra c (now_of sg p m s) /\ snd (get_background_name c) = snd (get_background_name s).
Proof.
  intros I GN Ip A. destruct sg; cbn [now_of].
  - cbn in Ip. subst p. assert (s = s0) as -> by congruence. destruct (i_signal _ _ _ I) as (c & Ac & Sc). exists c. split; [exact Ac|]. split; [exact Sc|].
    destruct (name_ext _ _ Sc) as [_ ->]. destruct (level_kept m (i_level _ _ _ I)) as (_ & _ & K1 & K2 & _). unfold get_background_name. rewrite K1, K2. destruct (s_bg s0) as [[|a t]|]; [|reflexivity|];
      (destruct (contains "mc" _); [reflexivity|]; destruct (contains "mix" _); [reflexivity|]; destruct (contains "reco" _); reflexivity).
  - exists s. split; [now apply (original_there m L)|]. split; [apply same_refl|reflexivity].
Qed.
Lemma conv_now m sg p s args : level m -> is_part sg p -> abs h0 (pt_ref p) = Some s ->
  match conv_of sg (now_of sg p m s) args, conv sg p args with
  | Ok y, Ok B => forall r c, same_spectra c y -> eorbit (sg, r, pt_own p, B) c
  | Err e, Err f => e = f
  | _, _ => False
  end.
Proof.
  intros Lm Ip A. unfold conv, shown. rewrite A. cbn [rbind]. destruct sg; cbn [now_of conv_of].
  - cbn in Ip. subst p. assert (s = s0) as -> by congruence. pose proof (level_conv m args Lm) as K.
    destruct (apply_last ps args G m m) as [y|], (apply_last ps args G s0 s0) as [B|]; try exact K. intros r c Sc. unfold eorbit. cbn [e_sg e_base fst snd]. exact (sorbit_same B y c K Sc).
  - destruct (apply_values ps args G s); [|reflexivity]. intros r c Sc. unfold eorbit. cbn [e_sg e_base e_own fst snd]. now left.
Qed.
Lemma through_ok b m L st sg p args : inv m L st -> G <> [] -> is_part sg p -> fs_cur st = map Some args -> good_args ft0 V args ->
  exists L', incl L L' /\ inv m L' (fst (through_cache (fx b) p (make b sg p) st)) /\ fs_cur (fst (through_cache (fx b) p (make b sg p) st)) = fs_cur st /\
  match snd (through_cache (fx b) p (make b sg p) st), conv sg p args with
  | Ok (r, own), Ok B => own = pt_own p /\ In (sg, r, own, B) L'
  | Err e, Err f => e = f
  | _, _ => False
  end.
Proof.
  intros I GN Ip C Ga. destruct (part_there sg p GN Ip) as (s & name & A0 & R & E & Nm).
  destruct (part_now m L st sg p s I GN Ip A0) as (c0 & A & S0 & Ec). rewrite E in Ec. unfold through_cache, mbind, look, mlift. rewrite A, Ec.
  rewrite cur_val_fx. change (global_pars (fx b)) with G.
  set (dd := match dget name (fs_cache st) with Some x => x | None => [] end).
  set (key := cur_val ft0 (fs_cur st) G). set (st1 := fs_with_cache st (dset name dd (fs_cache st))).
  assert (I1 : inv m L st1) by exact (inv_touch m L st name I). cbn zeta.
  destruct (dget key dd) as [[r own]|] eqn:Dk.
  - exists L. split; [apply incl_refl|]. split; [exact I1|]. split; [reflexivity|]. cbn [fst snd].
    destruct (i_cache _ _ _ I1 name dd key r own) as (sg' & p' & args' & B & K1 & K2 & K3 & K4 & K5 & K6 & K7); [cbn; apply dget_dset_same|exact Dk|].
    destruct (part_names sg sg' p p' name GN Ip K1 Nm K2) as [<- <-].
    rewrite (conv_args sg p args args' Ga K4), K6. { auto. } unfold key in K3. now rewrite C in K3.
  - destruct (make_ok b sg p st1 args (now_of sg p m s) c0 GN (i_wf _ _ _ I1) C Ga A S0) as (Z1 & Z2 & Z3 & Z4 & Z5).
    assert (I2 : inv m L (fst (make b sg p st1))).
    { apply (inv_step m L st1 _ (fun _ => False) I1 Z1); [now rewrite Z2|exact Z3|exact Z4| | |]; [intros x _; now left|intros r []|intros []]. }
    pose proof (conv_now m sg p s args (i_level _ _ _ I) Ip A0) as Cn.
    destruct (make b sg p st1) as [st2 [r|e]]; cbn [fst snd] in *.
    2:{ exists L. split; [apply incl_refl|]. split; [exact I2|]. split; [exact Z2|]. destruct (conv_of sg (now_of sg p m s) args); [contradiction|]. subst e.
        destruct (conv sg p args); [contradiction|exact Cn]. }
    destruct (conv_of sg (now_of sg p m s) args) as [y|] eqn:Ey; [|contradiction]. destruct (conv sg p args) as [B|] eqn:Co; [|contradiction]. destruct Z5 as (Ge & (c & Ac & Sc) & K1 & K2).
    exists ((sg, r, pt_own p, B) :: L). split; [apply incl_tl, incl_refl|]. split; [|split; [exact Z2|split; [reflexivity|now left]]].
    pose proof (f_len _ _ _ (i_frame _ _ _ I)) as Len. unfold st1 in Ge. cbn [fs_with_cache fs_heap] in Ge.
    apply (inv_add m L st2 name dd key r p sg args B c I2 GN); [lia| |exact Ac|exact (Cn r c Sc)| | | |exact Ip|exact Nm| |exact Ga|exact Co].
    + intro Ir. apply in_map_iff in Ir as (x & <- & Ix). destruct (i_live _ _ _ I _ Ix) as (_ & z & Az & _). apply abs_lt in Az. lia.
    + revert Co. unfold conv, shown. rewrite A0. cbn [rbind]. intro Co.
      destruct (make_kept sg s args B Co) as [Q1 Q2]. now apply (ready_same d s).
    + intros dd'. rewrite Z1. unfold st1. cbn [fs_with_cache fs_cache]. rewrite dget_dset_same. congruence.
    + rewrite Z1. unfold st1. cbn [fs_with_cache fs_cache]. rewrite dget_dset_same. discriminate.
    + unfold key. now rewrite C.
Qed.
(** ** The sum *)
Definition good {A} (R : A -> A -> Prop) (m : spectra) (L : list entry) (st : fstate) (x : fstate * res A) (y : res A) : Prop :=
  exists L', incl L L' /\ inv m L' (fst x) /\ fs_cur (fst x) = fs_cur st /\ res_eq R (snd x) y.
Lemma floating_split args p : floating_contribution ft0 h0 args p =
  rbind (conv false p args) (fun B => rbind (apply_values ps args (pt_own p) B) (nd_project (pt_pars p))).
Proof.
  unfold floating_contribution, contribution, conv, conv_of. destruct (shown h0 (pt_ref p)) as [s|]; [|reflexivity]. cbn [rbind]. rewrite apply_values_app.
  destruct (apply_values ps args G s); reflexivity.
Qed.
Lemma show_live b m L st p args r own B acc acc' : inv m L st -> In (false, r, own, B) L -> fs_cur st = map Some args -> good_args ft0 V args -> opt_eq acc acc' ->
  good arr_eq m L st ((let! r := apply_all (fx b) own r in let! _ := match_data (fx b) r in let! a := projection r (pt_pars p) in mlift (add_to acc a)) st)
    (rbind (rbind (apply_values ps args own B) (nd_project (pt_pars p))) (add_to acc')).
Proof.
  intros I J C Ga Eo. destruct (use_live b m L st r own B args I J C Ga) as (I1 & C1 & V1). unfold good. exists L. split; [apply incl_refl|].
  revert I1 C1 V1. unfold use, mbind, mret, projection, look, mlift.
  destruct (apply_all (fx b) own r st) as [st1 [r1|e1]]; cbn [fst snd]; intros I1 C1 V1.
  2:{ split; [exact I1|]. split; [exact C1|]. destruct (apply_values ps args own B); cbn; [contradiction|exact V1]. }
  destruct (match_data (fx b) r1 st1) as [st2 [[]|e2]]; cbn [fst snd] in *.
  2:{ split; [exact I1|]. split; [exact C1|]. destruct (apply_values ps args own B); cbn; [contradiction|exact V1]. }
  destruct (apply_values ps args own B) as [s|]; [|contradiction]. destruct V1 as (s' & As & Ss). unfold mbind. rewrite As. cbn [rbind].
  pose proof (nd_project_ext (pt_pars p) s' s Ss) as E. destruct (nd_project (pt_pars p) s') as [a|], (nd_project (pt_pars p) s) as [a'|]; cbn in E; try contradiction; cbn [fst snd rbind].
  - split; [exact I1|]. split; [exact C1|]. now apply add_to_ext.
  - split; [exact I1|]. split; [exact C1|]. exact E.
Qed.
Lemma add_floating_ok b m L st p args acc acc' : inv m L st -> In p (ft_floating ft0) -> fs_cur st = map Some args -> good_args ft0 V args -> opt_eq acc acc' ->
  good arr_eq m L st (add_floating (fx b) p acc st) (rbind (floating_contribution ft0 h0 args p) (add_to acc')).
Proof.
  intros I Ip C Ga Eo. rewrite floating_split. unfold add_floating. change (global_pars (fx b)) with G. destruct (list_eq_dec Nat.eq_dec G []) as [GN|GN].
  - rewrite GN. unfold mbind at 1, mret at 1. cbn [fst snd]. destruct (i_float _ _ _ I GN p Ip) as (s & A & J).
    assert (E : conv false p args = Ok s). { unfold conv, shown. rewrite A. cbn [rbind conv_of]. now rewrite GN. } rewrite E. cbn [rbind].
    exact (show_live b m L st p args _ _ s acc acc' I J C Ga Eo).
  - assert (E : (match G with [] => mret (pt_ref p, pt_own p) | gs => through_cache (fx b) p (apply_all (fx b) gs (pt_ref p)) end) = through_cache (fx b) p (make b false p)).
    { cbn [make]. destruct G; [congruence|reflexivity]. } rewrite E. clear E.
    destruct (through_ok b m L st false p args I GN Ip C Ga) as (L1 & Inc & I1 & C1 & V1). unfold mbind at 1.
    destruct (through_cache (fx b) p (make b false p) st) as [st1 [[r own]|e]]; cbn [fst snd] in *.
    + destruct (conv false p args) as [B|]; [|contradiction]. destruct V1 as (-> & J). cbn [rbind].
      destruct (show_live b m L1 st1 p args r _ B acc acc' I1 J (eq_trans C1 C) Ga Eo) as (L2 & Inc2 & I2 & C2 & V2).
      exists L2. split; [eapply incl_tran; eassumption|]. split; [exact I2|]. split; [congruence|exact V2].
    + exists L1. split; [exact Inc|]. split; [exact I1|]. split; [exact C1|]. destruct (conv false p args); cbn; [contradiction|exact V1].
Qed.
Lemma add_floatings_ok b m args : good_args ft0 V args -> forall l L st acc acc', inv m L st -> incl l (ft_floating ft0) -> fs_cur st = map Some args -> opt_eq acc acc' ->
  good opt_eq m L st (add_floatings (fx b) l acc st) (sum_parts acc' (map (floating_contribution ft0 h0 args) l)).
Proof.
  intro Ga. induction l as [|p l IH]; intros L st acc acc' I Il C Eo.
  - exists L. split; [apply incl_refl|]. split; [exact I|]. split; [reflexivity|exact Eo].
  - cbn [map]. rewrite sum_parts_cons. cbn [add_floatings]. unfold mbind.
    destruct (add_floating_ok b m L st p args acc acc' I (Il p (or_introl eq_refl)) C Ga Eo) as (L1 & Inc1 & I1 & C1 & V1).
    destruct (add_floating (fx b) p acc st) as [st1 [a|e]]; cbn [fst snd] in *; destruct (rbind (floating_contribution ft0 h0 args p) (add_to acc')) as [x|]; cbn in V1; try contradiction.
    + cbn [rbind]. destruct (IH L1 st1 (Some a) (Some x) I1 (fun q H => Il q (or_intror H)) (eq_trans C1 C) V1) as (L2 & Inc2 & I2 & C2 & V2).
      exists L2. split; [eapply incl_tran; eassumption|]. split; [exact I2|]. split; [congruence|exact V2].
    + exists L1. split; [exact Inc1|]. split; [exact I1|]. split; [exact C1|]. exact V1.
Qed.

(** ** The signal *)
Lemma sorbit_rate n B c : sorbit B c -> res_eq same_spectra (apply_value KRate n c) (apply_value KRate n B).
Proof. intros [O|(n1 & s1 & N1 & S1 & O)]; [now apply scale_value|now apply (rate_scaled n1 B s1 c n)]. Qed.
Lemma scale_live m L st r own B n : inv m L st -> In (true, r, own, B) L -> n <> 0%Qc -> s_decays B <> 0%Qc ->
  exists st' u, on_heap (h_scale n r) st = (st', Ok tt) /\ inv m L st' /\ fs_cur st' = fs_cur st /\ scale n B = (u, None) /\ exists c, abs (fs_heap st') r = Some c /\ same_spectra c u.
Proof.
  intros I J Nn Dn. destruct (i_live _ _ _ I _ J) as (R & c & A & O). unfold eorbit in O. cbn in A, O, R.
  pose proof (in_map e_ref _ _ J) as Jr. destruct (i_apart _ _ _ I r Jr) as (_ & _ & Ns & _).
  pose proof (sorbit_rate n B c O) as E. destruct (scale_ok n B Dn) as (u & Eu). cbn [apply_value] in E. rewrite Eu in E.
  pose proof (scale_call n r (fs_heap st) c (i_wf _ _ _ I) A) as Gc. pose proof (frame_effect r _ _ _ Gc (ex_intro _ c A)) as F.
  destruct Gc as (_ & W1 & (c1 & A1 & S1) & O1). unfold on_heap.
  destruct (h_scale n r (fs_heap st)) as [h1 e1]. cbn [fst snd] in *. subst e1. destruct (scale n c) as [t [e|]]; cbn in E; [contradiction|]. cbn [fst snd] in *.
  assert (S2 : same_spectra c1 u) by (eapply same_trans; eassumption).
  eexists _, u. split; [reflexivity|]. split; [|split; [reflexivity|split; [exact Eu|now exists c1]]].
  apply (inv_step m L st (fs_with_heap st h1) (eq r) I eq_refl eq_refl W1 F); [| |exact Ns].
  - intros x Ix. destruct (Nat.eq_dec r (e_ref x)) as [Ex|Nx]; [right|left; exact Nx].
    assert (x = (true, r, own, B)) as -> by (apply (entry_unique L); [exact (i_nodup _ _ _ I)|exact Ix|exact J|now symmetry]).
    exists c1. split; [exact A1|]. unfold eorbit. cbn [e_sg e_base fst snd]. right. exists n, u. auto.
  - intros q <- _. exact Jr.
Qed.
Lemma signal_ref_ok b m L st args : inv m L st -> fs_cur st = map Some args -> good_args ft0 V args ->
  exists L', incl L L' /\ inv m L' (fst (signal_ref (fx b) sp st)) /\ fs_cur (fst (signal_ref (fx b) sp st)) = fs_cur st /\
  match snd (signal_ref (fx b) sp st), apply_last ps args G m m with
  | Ok r, Ok B => exists c, abs (fs_heap (fst (signal_ref (fx b) sp st))) r = Some c /\ same_spectra c B
  | Err e, Err f => e = f
  | _, _ => False
  end.
Proof.
  intros I C Ga. unfold signal_ref. change (global_pars (fx b)) with G. destruct (i_signal _ _ _ I) as (cs & As & Ss). destruct (list_eq_dec Nat.eq_dec G []) as [GN|GN].
  - rewrite GN. cbn [mret fst snd apply_last].
    exists L. split; [apply incl_refl|]. split; [exact I|]. split; [reflexivity|]. exists cs. auto.
  - pose proof (decays0 GN) as D0. destruct (level_kept m (i_level _ _ _ I)) as (_ & _ & _ & _ & Dm). specialize (Dm D0).
    assert (Dc : s_decays cs = s_decays m) by (destruct Ss as [(_ & _ & _ & K & _) _]; exact K).
    assert (E : forall k : list nat -> M nat, (match G with [] => mret (pt_ref sp) | gs => k gs end) = k G) by (intro k; destruct G; [congruence|reflexivity]).
    rewrite (E (fun gs => let! s := look (pt_ref sp) in let! x := through_cache (fx b) sp (apply_each (fx b) gs (pt_ref sp) (pt_ref sp)) in
      let! _ := match_data (fx b) (fst x) in let! _ := on_heap (h_scale (s_decays s) (fst x)) in mret (fst x))). clear E. cbv beta.
    change (apply_each (fx b) G (pt_ref sp) (pt_ref sp)) with (make b true sp). unfold mbind, look, mret. cbv beta. rewrite As.
    destruct (through_ok b m L st true sp args I GN eq_refl C Ga) as (L1 & Inc & I1 & C1 & V1).
    pose proof (level_conv m args (i_level _ _ _ I)) as Lc.
    assert (Ec : conv true sp args = apply_last ps args G s0 s0) by (unfold conv, shown; now rewrite AS). rewrite Ec in V1.
    destruct (through_cache (fx b) sp (make b true sp) st) as [st1 [[r own]|e]]; cbn [fst snd] in *.
    2:{ exists L1. split; [exact Inc|]. split; [exact I1|]. split; [exact C1|]. destruct (apply_last ps args G s0 s0); [contradiction|]. subst e.
        destruct (apply_last ps args G m m); [contradiction|now symmetry]. }
    destruct (apply_last ps args G s0 s0) as [B|] eqn:Co; [|contradiction]. destruct V1 as (-> & J).
    destruct (apply_last ps args G m m) as [y|] eqn:Cy; [|contradiction].
    destruct (i_live _ _ _ I1 _ J) as (R & c & Ac & O).
    destruct (match_live b m L1 st1 true r _ B I1 J c Ac) as (st2 & E2 & I2 & C2 & s2 & A2 & S2). rewrite E2.
    destruct (apply_last_kept ft0 args G DV s0 s0 B Co eq_refl eq_refl eq_refl) as (_ & _ & DB).
    destruct (apply_last_kept ft0 args G DV m m y Cy eq_refl eq_refl eq_refl) as (_ & _ & Dy).
    destruct (scale_live m L1 st2 r _ B (s_decays cs) I2 J) as (st3 & u & E3 & I3 & C3 & Eu & c3 & A3 & S3); [congruence|congruence|]. rewrite E3. cbn [fst snd].
    exists L1. split; [exact Inc|]. split; [exact I3|]. split; [congruence|]. exists c3. split; [exact A3|]. apply (same_trans _ u); [exact S3|].
    destruct Lc as [Lc|(n1 & s1 & N1 & E1 & Lc)].
    + assert (Db : s_decays B = s_decays cs). { destruct Lc as [(_ & _ & _ & K & _) _]. congruence. }
      destruct (scale_own B) as (t & T1 & T2); [congruence|]. assert (t = u) as -> by congruence. apply (same_trans _ B); [exact T2|now apply same_sym].
    + assert (Db : n1 = s_decays cs). { destruct (scale_decays _ _ _ E1) as (K1 & _). destruct Lc as [(_ & _ & _ & K & _) _]. congruence. }
      assert (s1 = u) as -> by congruence. now apply same_sym.
Qed.
(** The signal at level [m]; [None] if the fit has none. *)
Definition signal_at (args : list Qc) (m : spectra) : res ndarray := do y <- apply_last ps args G m m; nd_project (pt_pars sp) y.
Definition with_signal (b : bool) (args : list Qc) (m : spectra) : list (res ndarray) := if b then [signal_at args m] else [].
Lemma add_signal_ok b m L st args a a' : inv m L st -> fs_cur st = map Some args -> good_args ft0 V args -> arr_eq a a' ->
  good opt_eq m L st (add_signal (fx b) (Some a) st) (sum_parts (Some a') (with_signal b args m)).
Proof.
  intros I C Ga Ea. unfold add_signal, with_signal. cbn [fx ft_signal]. destruct b.
  2:{ exists L. split; [apply incl_refl|]. split; [exact I|]. split; [reflexivity|exact Ea]. }
  destruct (signal_ref_ok true m L st args I C Ga) as (L1 & Inc & I1 & C1 & V1). unfold mbind at 1.
  rewrite sum_parts_cons. unfold signal_at. destruct (signal_ref (fx true) sp st) as [st1 [r|e]]; cbn [fst snd] in *; destruct (apply_last ps args G m m) as [B|]; try contradiction.
  2:{ exists L1. split; [exact Inc|]. split; [exact I1|]. split; [exact C1|]. exact V1. }
  destruct V1 as (c & Ac & Sc). unfold mbind, projection, look, mlift, mbind, mret. rewrite Ac. cbn [rbind].
  pose proof (nd_project_ext (pt_pars sp) c B Sc) as E. destruct (nd_project (pt_pars sp) c) as [x|], (nd_project (pt_pars sp) B) as [y|]; cbn in E; try contradiction; cbn [rbind].
  2:{ exists L1. split; [exact Inc|]. split; [exact I1|]. split; [exact C1|]. exact E. }
  pose proof (add_to_ext (Some a) (Some a') x y Ea E) as K. destruct (add_to (Some a) x) as [z|], (add_to (Some a') y) as [z'|]; cbn in K; try contradiction; cbn [rbind];
    (exists L1; split; [exact Inc|]; split; [exact I1|]; split; [exact C1|]; exact K).
Qed.

(** ** One call *)
Definition fitted_at (b : bool) (m : spectra) (args : list Qc) : res (ndarray * ndarray) :=
  do o <- observed ft0 h0;
  do fixed <- (match ft_fixed ft0 with
               | None => Ok None
               | Some (r, pars) => do s <- shown h0 r; rmap Some (nd_project pars s)
               end);
  do e <- sum_parts fixed (map (floating_contribution ft0 h0 args) (ft_floating ft0) ++ with_signal b args m);
  match e with Some e => Ok (o, e) | None => Err ETypeError end.
Lemma spectra_of_ok b m L st args : inv m L st -> good_args ft0 V args -> forall x, spectra_of (fx b) args st = x ->
  exists L', inv m L' (fst x) /\ fs_cur (fst x) = map Some args /\ res_eq pair_eq (snd x) (fitted_at b m args).
Proof.
  intros I Ga x. unfold spectra_of, fitted_at, observed. cbn [fx ft_floating ft_data ft_data_pars ft_fixed].
  case_eq (ft_floating ft0); [intro FL; destruct (pr_some _ _ PR FL)|intros p0 fl FL]. rewrite <- FL.
  pose proof Ga as (Le & _). unfold mbind at 1. rewrite set_currents_ok by (rewrite (i_cur _ _ _ I); exact Le). cbn [fst snd].
  set (st1 := fs_with_cur st (map Some args)). assert (C : fs_cur st1 = map Some args) by reflexivity.
  assert (I1 : inv m L st1). { apply (inv_step m L st st1 (fun _ => False) I); [reflexivity| |exact (i_wf _ _ _ I)|apply frame_refl|intros; now left|intros r []|intros []]. cbn. rewrite map_length, (i_cur _ _ _ I). exact Le. }
  clearbody st1. unfold mbind at 1, projection at 1, mbind at 1, look at 1, mlift at 1. rewrite (data_there _ _ _ I1).
  unfold shown at 1. rewrite AD. cbn [rbind]. destruct (nd_project (ft_data_pars ft0) d) as [obs|e]; [|intros <-; exists L; split; [exact I1|split; [exact C|reflexivity]]]. cbn [rbind].
  assert (Fx : exists accr, (match ft_fixed ft0 with None => mret None | Some (r, pars) => let! a := projection r pars in mret (Some a) end) st1 = (st1, accr) /\
                 accr = match ft_fixed ft0 with None => Ok None | Some (r, pars) => do s <- shown h0 r; rmap Some (nd_project pars s) end).
  { case_eq (ft_fixed ft0); [intros [r pars] Ff|intros _; eexists; split; reflexivity]. destruct (pr_fixed _ _ PR _ _ Ff) as (s & As).
    unfold mbind, projection, mbind, look, mlift, mret, shown. rewrite (fixed_there m L st1 r pars s I1 Ff As), As. cbn [rbind].
    destruct (nd_project pars s); eexists; split; reflexivity. }
  unfold mbind at 1. destruct Fx as (accr & -> & <-). destruct accr as [acc|e]; [|intros <-; exists L; split; [exact I1|split; [exact C|reflexivity]]]. cbn [rbind].
  assert (Ea : opt_eq acc acc) by (destruct acc; cbn; [apply arr_refl|exact Logic.I]).
  destruct (add_floatings_ok b m args Ga (ft_floating ft0) L st1 acc acc I1 (incl_refl _) C Ea) as (L2 & _ & I2 & C2 & V2).
  rewrite sum_parts_app. unfold mbind at 1. destruct (add_floatings (fx b) (ft_floating ft0) acc st1) as [st2 [e2|e2]]; cbn [fst snd] in *;
    destruct (sum_parts acc (map (floating_contribution ft0 h0 args) (ft_floating ft0))) as [e3|e3] eqn:SP; cbn in V2; try contradiction.
  2:{ intros <-. exists L2. split; [exact I2|]. split; [cbn; congruence|exact V2]. }
  assert (Ns : e3 <> None).
  { rewrite FL in SP. cbn [map] in SP. rewrite sum_parts_cons in SP. destruct (rbind (floating_contribution ft0 h0 args p0) (add_to acc)) as [y|]; [|discriminate].
    cbn [rbind] in SP. now apply sum_parts_some in SP. }
  destruct e3 as [e3|]; [|congruence]. destruct e2 as [e2|]; [|contradiction]. cbn [rbind].
  destruct (add_signal_ok b m L2 st2 args e2 e3 I2 (eq_trans C2 C) Ga V2) as (L3 & _ & I3 & C3 & V3). unfold mbind at 1.
  destruct (add_signal (fx b) (Some e2) st2) as [st3 [e4|e4]]; cbn [fst snd] in *;
    destruct (sum_parts (Some e3) (with_signal b args m)) as [e5|e5]; cbn in V3; try contradiction.
  - destruct e4 as [e4|], e5 as [e5|]; cbn in V3; try contradiction; intros <-; exists L3; (split; [exact I3|]); (split; [cbn; congruence|]); cbn; [split; [apply arr_refl|exact V3]|reflexivity].
  - intros <-. exists L3. split; [exact I3|]. split; [cbn; congruence|exact V3].
Qed.
(** ** The signal scaled *)
Lemma rescale_ok m L st k : inv m L st -> (0 < k / s_decays s0)%Qc -> exists st' m', on_heap (h_scale k (pt_ref sp)) st = (st', Ok tt) /\ scale k s0 = (m', None) /\ inv m' L st' /\ fs_cur st' = fs_cur st.
Proof.
  intros I P. destruct (i_signal _ _ _ I) as (c & A & S). pose proof (positive_ratio _ _ P) as D0.
  destruct (scale_ok k s0 D0) as (m' & E').
  assert (O : sorbit s0 c). { apply (sorbit_same s0 m); [|exact S]. destruct (i_level _ _ _ I) as [->|(n & Pn & En)]; [left; apply same_refl|right; exists n, m]. split; [exact (rate_nonzero _ _ Pn)|]. split; [exact En|apply same_refl]. }
  pose proof (sorbit_rate k s0 c O) as E. cbn [apply_value] in E. rewrite E' in E.
  pose proof (scale_call k (pt_ref sp) (fs_heap st) c (i_wf _ _ _ I) A) as Gc. pose proof (frame_effect _ _ _ _ Gc (ex_intro _ c A)) as F.
  destruct Gc as (_ & W1 & (c1 & A1 & S1) & O1). unfold on_heap.
  destruct (h_scale k (pt_ref sp) (fs_heap st)) as [h1 e1]. cbn [fst snd] in *. subst e1. destruct (scale k c) as [t [e|]]; cbn in E; [contradiction|]. cbn [fst snd] in *.
  eexists _, m'. split; [reflexivity|]. split; [exact E'|]. split; [|reflexivity].
  apply (inv_step_gen m m' L st (fs_with_heap st h1) (eq (pt_ref sp)) I eq_refl eq_refl W1 F).
  - intros x Ix. left. pose proof (in_map e_ref _ _ Ix) as Jr. destruct (i_apart _ _ _ I _ Jr) as (_ & _ & Ns & _). congruence.
  - intros r <- _. now right.
  - right. now exists k.
  - exists c1. split; [exact A1|]. eapply same_trans; eassumption.
Qed.
Definition live0 : list entry :=
  match G with
  | [] => map (fun p => (false, pt_ref p, pt_own p, match abs h0 (pt_ref p) with Some s => s | None => d end)) (ft_floating ft0)
  | _ => []
  end.
Lemma start_inv : inv s0 live0 (f_start ft0 h0).
Proof.
  assert (Mp : incl (map e_ref live0) (map pt_ref (ft_floating ft0))).
  { unfold live0. destruct G; [|intros r []]. rewrite map_map. apply incl_refl. }
  constructor; cbn [f_start fs_heap fs_cache fs_cur].
  - exact (pr_heap _ _ PR).
  - apply map_length.
  - apply frame_refl.
  - unfold live0. destruct G; [|constructor]. rewrite map_map. exact (pr_floating_nodup _ _ PR).
  - intros r K. split; [|split; [|split]].
    + intros ->. now apply (pr_data_apart _ _ PR), Mp.
    + intros q pars F ->. now apply (pr_fixed_apart _ _ PR _ _ F), Mp.
    + intros ->. now apply (pr_signal_apart _ _ PR sp eq_refl), Mp.
    + intro GN. revert K. unfold live0. destruct G; [congruence|intros []].
  - intros x. unfold live0. destruct G; [|intros []]. intro K. apply in_map_iff in K as (p & <- & K). destruct (RD p (or_introl K)) as (s & A & R).
    cbn. rewrite A. split; [exact R|]. exists s. split; [reflexivity|left; apply same_refl].
  - intros GN p K. destruct (RD p (or_introl K)) as (s & A & R). exists s. split; [exact A|]. unfold live0. rewrite GN. apply in_map_iff. exists p. now rewrite A.
  - intros name dd key r own H. discriminate.
  - now left.
  - exists s0. split; [exact AS|apply same_refl].
Qed.
(** ** The value to minimise *)
Lemma funct_ok b stat pen pb sb m L st args : inv m L st -> good_args ft0 V args -> forall x, funct (fx b) stat pen pb sb args st = x ->
  exists L', inv m L' (fst x) /\ snd x = value_of ft0 h0 stat pen pb sb args (fitted_at b m args).
Proof.
  intros I Ga x. unfold funct, value_of. destruct (spectra_of_ok b m L st args I Ga _ eq_refl) as (L1 & I1 & C1 & E).
  unfold mbind. destruct (spectra_of (fx b) args st) as [st1 [oe|e]]; cbn [fst snd] in *; destruct (fitted_at b m args) as [oe'|]; cbn in E; try contradiction; cbn [rbind].
  2:{ intros <-. exists L1. split; [exact I1|now rewrite <- E]. }
  destruct E as [E1 E2]. rewrite <- (flat_ext sb _ _ E1), <- (flat_ext sb _ _ E2). unfold mlift, look, mret.
  destruct (stat _ _) as [t|]; [|intros <-; exists L1; split; [exact I1|reflexivity]]. cbn [rbind fx ft_pars ft_data].
  rewrite C1. destruct Ga as (Le & _). rewrite penalty_ok by exact Le. rewrite (data_there _ _ _ I1). unfold shown. rewrite AD. cbn [rbind]. unfold per_bin_shape.
  destruct pb.
  - destruct (areshape _ _); intros <-; exists L1; split; [exact I1|reflexivity|exact I1|reflexivity].
  - intros <-. exists L1. split; [exact I1|reflexivity].
Qed.
Lemma calls_ok b stat pen pb sb m : forall l, Forall (good_args ft0 V) l -> forall rs,
  Forall2 (fun v r => value_of ft0 h0 stat pen pb sb v (fitted_at b m v) = Ok r) l rs -> forall L st, inv m L st ->
  exists o L', calls (objective (fx b) stat pen pb sb) st l = (o, rs, None) /\ inv m L' o.
Proof.
  induction 1 as [|v l Hv _ IH]; intros rs F L st I; inversion F as [|x y l' rs' E F']; subst; [now exists st, L|].
  cbn [calls]. unfold objective at 1. destruct (funct_ok b stat pen pb sb m L st v I Hv _ eq_refl) as (L1 & I1 & E1). rewrite E in E1.
  destruct (funct (fx b) stat pen pb sb v st) as [st1 r]. cbn [fst snd] in *. subst r. destruct (IH _ F' L1 st1 I1) as (o & L' & -> & I2). now exists o, L'.
Qed.
End Scan.

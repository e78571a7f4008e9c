(** The expected spectrum of a fit after any history of calls. *)
From Coq Require Import Lia Permutation.
From Verif Require Import Model.Base Model.PyStr Model.NDArray Model.Param Model.Config Model.Spectra
  Model.Smear Model.Shift Model.Heap Model.Minimise Model.Fit.
From Verif Require Import Spec.AxisSpec Spec.ArraySpec Spec.SpectraSpec Spec.ShrinkSpec Spec.HeapSpec Spec.SearchSpec Spec.FitRunSpec.
From Verif Require Import Proofs.QcLemmas Proofs.NDArrayLemmas Proofs.StrLemmas Proofs.DictLemmas Proofs.ParamLemmas
  Proofs.OpsLemmas Proofs.ExtLemmas Proofs.DeriveExt Proofs.HeapLemmas Proofs.MinimiseLemmas Proofs.FitLemmas Proofs.FitPrep.

Section Run.
Context (ft : fit) (h0 : heap) (V : Qc -> Prop) (d : spectra).
Notation ps := (ft_pars ft).
Notation G := (global_pars ft).
Hypothesis PR : prepared ft h0.
Hypothesis DP : distinct_printing ft V.
Hypothesis AD : abs h0 (ft_data ft) = Some d.
Hypothesis WD : wf_spectra d.
Hypothesis RD : forall p, In p (ft_floating ft) \/ (G <> [] /\ ft_signal ft = Some p) -> exists s, abs h0 (pt_ref p) = Some s /\ fit_ready d s.

Definition entry : Type := nat * list nat * spectra.
Definition e_ref (x : entry) : nat := fst (fst x).
Definition e_own (x : entry) : list nat := snd (fst x).
Definition e_base (x : entry) : spectra := snd x.

Lemma NoDup_app_left {A} (l m : list A) : NoDup (l ++ m) -> NoDup l.
Proof.
  induction l as [|x l IH]; cbn; intro N; [constructor|]. inversion N as [|a b Na Nb]; subst. constructor; [|now apply IH].
  intro I. apply Na, in_or_app. now left.
Qed.

Definition is_part (sg : bool) (p : part) : Prop := if sg then ft_signal ft = Some p else In p (ft_floating ft).
Definition conv (sg : bool) (p : part) (args : list Qc) : res spectra :=
  do s <- shown h0 (pt_ref p);
  if sg then apply_last ps args G s s else apply_values ps args G s.

Record inv (L : list entry) (st : fstate) : Prop := Inv {
  i_wf : wf_heap (fs_heap st);
  i_cur : length (fs_cur st) = length ps;
  i_frame : frame (fun r => In r (map e_ref L)) h0 (fs_heap st);
  i_nodup : NoDup (map e_ref L);
  i_apart : forall r, In r (map e_ref L) -> r <> ft_data ft /\ (forall q pars, ft_fixed ft = Some (q, pars) -> r <> q) /\
              (forall p, ft_signal ft = Some p -> r <> pt_ref p) /\ (G <> [] -> length (h_objs h0) <= r);
  i_live : forall x, In x L -> fit_ready d (e_base x) /\ exists c, abs (fs_heap st) (e_ref x) = Some c /\ orbit ps (e_own x) (e_base x) c;
  i_float : G = [] -> forall p, In p (ft_floating ft) -> exists s, abs h0 (pt_ref p) = Some s /\ In (pt_ref p, pt_own p, s) L;
  i_cache : forall name dd key r own, dget name (fs_cache st) = Some dd -> dget key dd = Some (r, own) ->
      exists sg p args B, is_part sg p /\ name_of h0 p = Some name /\ key = cur_val ft (map Some args) G /\ good_args ft V args /\
        own = pt_own p /\ conv sg p args = Ok B /\ In (r, own, B) L }.

Lemma SE : all_see ps. Proof. intros p I. now apply (pr_sees ft h0 PR). Qed.
Lemma orbit_same l B c c' : orbit ps l B c -> same_spectra c' c -> orbit ps l B c'.
Proof.
  intros [H|(F & n & s1 & N & S & H)] E; [left|right]; [eapply same_trans; eassumption|].
  split; [exact F|]. exists n, s1. split; [exact N|]. split; [exact S|]. eapply same_trans; eassumption.
Qed.
Lemma inv_step L st st' (X : nat -> Prop) : inv L st -> fs_cache st' = fs_cache st -> length (fs_cur st') = length (fs_cur st) -> wf_heap (fs_heap st') ->
  frame X (fs_heap st) (fs_heap st') ->
  (forall x, In x L -> ~ X (e_ref x) \/ exists c, abs (fs_heap st') (e_ref x) = Some c /\ orbit ps (e_own x) (e_base x) c) ->
  (forall r, X r -> r < length (h_objs h0) -> In r (map e_ref L)) -> inv L st'.
Proof.
  intros [I1 I2 I3 I4 I5 I6 I7 I8] Ca Cu W F K S. constructor; auto; try congruence.
  - destruct I3 as [a b c e f], F as [a' b' c' e' f']. constructor; auto; [|lia]. intros r o N H. apply e'; [|now apply e].
    intro K'. apply N, S; [exact K'|now apply nth_some_lt in H].
  - intros x I. destruct (I6 x I) as (R & c & A & O). split; [exact R|].
    destruct (K x I) as [D|D]; [|exact D]. exists c. split; [|exact O]. now apply (abs_frame X (fs_heap st)).
  - intros name dd key r own. rewrite Ca. apply I8.
Qed.
Lemma entry_unique L (x y : entry) : NoDup (map e_ref L) -> In x L -> In y L -> e_ref x = e_ref y -> x = y.
Proof.
  induction L as [|z L IH]; cbn; intros N I J E; [destruct I|]. inversion N as [|a b Na Nb]; subst.
  destruct I as [->|I], J as [->|J]; auto; exfalso; apply Na; [rewrite E|rewrite <- E]; now apply in_map.
Qed.
Lemma orbit_ready l B c : fit_ready d B -> orbit ps l B c -> fit_ready d c.
Proof.
  intros R O. assert (K : s_cfg c = s_cfg B /\ ashape (s_data c) = ashape (s_data B)).
  { destruct O as [O|(_ & n & s1 & _ & E & O)].
    - destruct O as [(_ & _ & K & _ & _ & _ & _ & S) _]. auto.
    - destruct O as [(_ & _ & K & _ & _ & _ & _ & S) _]. rewrite K, S. revert E. unfold scale. destruct (qdiv _ _); [|discriminate]. intro E. injection E as <-. auto. }
  now apply (ready_same d B).
Qed.
(** The spectra the fit may not touch are as they were. *)
Lemma untouched L st r s : inv L st -> ~ In r (map e_ref L) -> abs h0 r = Some s -> abs (fs_heap st) r = Some s.
Proof. intros I N A. exact (abs_frame _ _ _ _ _ (i_frame _ _ I) N A). Qed.
Lemma data_there L st : inv L st -> abs (fs_heap st) (ft_data ft) = Some d.
Proof. intro I. apply (untouched L); [exact I| |exact AD]. intro K. now destruct (i_apart _ _ I _ K) as (K1 & _). Qed.
Lemma fixed_there L st r pars s : inv L st -> ft_fixed ft = Some (r, pars) -> abs h0 r = Some s -> abs (fs_heap st) r = Some s.
Proof. intros I F A. apply (untouched L); [exact I| |exact A]. intro K. destruct (i_apart _ _ I _ K) as (_ & K1 & _). now apply (K1 r pars). Qed.
Lemma signal_there L st p s : inv L st -> ft_signal ft = Some p -> abs h0 (pt_ref p) = Some s -> abs (fs_heap st) (pt_ref p) = Some s.
Proof. intros I F A. apply (untouched L); [exact I| |exact A]. intro K. destruct (i_apart _ _ I _ K) as (_ & _ & K1 & _). now apply (K1 p). Qed.
Lemma original_there L st r s : inv L st -> G <> [] -> abs h0 r = Some s -> abs (fs_heap st) r = Some s.
Proof.
  intros I F A. apply (untouched L); [exact I| |exact A]. intro K. destruct (i_apart _ _ I _ K) as (_ & _ & _ & K1). specialize (K1 F).
  apply abs_lt in A. lia.
Qed.

(** One use of a live spectrum: its own parameters, the axes of the data. *)
Definition use (r : nat) (l : list nat) : M nat := let! r' := apply_all ft l r in let! _ := match_data ft r' in mret r'.
Lemma match_live L st r own B : inv L st -> In (r, own, B) L -> forall c, abs (fs_heap st) r = Some c ->
  exists st', match_data ft r st = (st', Ok tt) /\ inv L st' /\ fs_cur st' = fs_cur st /\ exists s', abs (fs_heap st') r = Some s' /\ same_spectra s' c.
Proof.
  intros I J c A. destruct (i_live _ _ I _ J) as (R & c' & A' & O). assert (c' = c) as -> by (cbn in A'; congruence). clear A'.
  assert (Nr : r <> ft_data ft). { intro E. destruct (i_apart _ _ I r) as (K & _); [now apply (in_map e_ref) in J|congruence]. }
  destruct (match_data_ran ft r st d c (i_wf _ _ I) Nr (data_there _ _ I) A WD (orbit_ready _ _ _ R O)) as (st' & E & Ca & Cu & W & F & s' & As & Ss).
  exists st'. split; [exact E|]. split; [|split; [exact Cu|now exists s']].
  apply (inv_step L st st' (eq r) I Ca); [now rewrite Cu|exact W|exact F| |].
  - intros x Ix. destruct (Nat.eq_dec r (e_ref x)) as [Ex|Nx]; [right|left; exact Nx].
    assert (x = (r, own, B)) as -> by (apply (entry_unique L); [exact (i_nodup _ _ I)|exact Ix|exact J|now symmetry]).
    cbn. exists s'. split; [exact As|]. now apply orbit_same with c.
  - intros q <- _. exact (in_map e_ref _ _ J).
Qed.
Lemma match_new L st r s : inv L st -> ~ In r (map e_ref L) -> length (h_objs h0) <= r -> abs (fs_heap st) r = Some s -> fit_ready d s ->
  exists st', match_data ft r st = (st', Ok tt) /\ inv L st' /\ fs_cur st' = fs_cur st /\ exists s', abs (fs_heap st') r = Some s' /\ same_spectra s' s.
Proof.
  intros I N Ge A R. pose proof (abs_lt _ _ _ AD) as Ld.
  destruct (match_data_ran ft r st d s (i_wf _ _ I) ltac:(lia) (data_there _ _ I) A WD R) as (st' & E & Ca & Cu & W & F & s' & As & Ss).
  exists st'. split; [exact E|]. split; [|split; [exact Cu|now exists s']].
  apply (inv_step L st st' (eq r) I Ca); [now rewrite Cu|exact W|exact F| |].
  - intros x Ix. left. intros ->. now apply N, in_map.
  - intros q <- K. lia.
Qed.
Lemma use_live L st r own B args : inv L st -> In (r, own, B) L -> fs_cur st = map Some args -> good_args ft V args ->
  inv L (fst (use r own st)) /\ fs_cur (fst (use r own st)) = fs_cur st /\
  match snd (use r own st), apply_values ps args own B with
  | Ok r', Ok s => exists s', abs (fs_heap (fst (use r own st))) r' = Some s' /\ same_spectra s' s
  | Err e, Err f => e = f
  | _, _ => False
  end.
Proof.
  intros I J C (_ & _ & NZ). destruct (i_live _ _ I _ J) as (R & c & A & O). cbn in A, O, R.
  destruct (apply_all_ran ft args own SE NZ r st c B (i_wf _ _ I) C A O) as (Ra & c1 & A1 & O1).
  assert (I1 : inv L (fst (apply_all ft own r st))).
  { destruct Ra as (Ca & Cu & W & F & _). apply (inv_step L st _ (fun x => r = x /\ first_rate ps own) I Ca); [now rewrite Cu|exact W|exact F| |].
    - intros x Ix. destruct (Nat.eq_dec r (e_ref x)) as [Ex|Nx]; [right|left; intros [K _]; congruence].
      assert (x = (r, own, B)) as -> by (apply (entry_unique L); [exact (i_nodup _ _ I)|exact Ix|exact J|now symmetry]).
      exists c1. auto.
    - intros q [<- _] _. exact (in_map e_ref _ _ J). }
  unfold use, mbind, mret. destruct (apply_all ft own r st) as [st1 [r1|e1]] eqn:EA; cbn [fst snd] in *.
  2:{ destruct Ra as (Ca & Cu & W & F & K). cbn [fst snd] in *. split; [exact I1|]. split; [exact Cu|exact K]. }
  destruct Ra as (Ca & Cu & W & F & K). cbn [fst snd] in *.
  destruct (apply_values ps args own B) as [s1|] eqn:Ev; [|contradiction]. destruct K as (K & s' & As & Ss).
  assert (M : exists st', match_data ft r1 st1 = (st', Ok tt) /\ inv L st' /\ fs_cur st' = fs_cur st1 /\ exists s2, abs (fs_heap st') r1 = Some s2 /\ same_spectra s2 s').
  { destruct K as [->|K]; [exact (match_live L st1 r own B I1 J s' As)|].
    pose proof (f_len _ _ _ (i_frame _ _ I)). apply (match_new L st1 r1 s' I1); [|lia|exact As|].
    - intro Ir. apply in_map_iff in Ir as (x & <- & Ix). destruct (i_live _ _ I _ Ix) as (_ & z & Az & _). apply abs_lt in Az. lia.
    - apply apply_values_kept in Ev as [E1 E2]. destruct Ss as [(_ & _ & E3 & _ & _ & _ & _ & E4) _].
      apply (ready_same d B); [exact R|congruence|congruence]. }
  destruct M as (st2 & E2 & I2 & C2 & s2 & A2 & S2). rewrite E2. cbn [fst snd]. split; [exact I2|]. split; [congruence|].
  exists s2. split; [exact A2|]. eapply same_trans; eassumption.
Qed.

(** ** The dictionary of convolved spectra *)
Definition make (sg : bool) (p : part) : M nat := if sg then apply_each ft G (pt_ref p) (pt_ref p) else apply_all ft G (pt_ref p).
Lemma inv_add L st name dd key r p sg args B c : inv L st -> G <> [] -> length (h_objs h0) <= r -> ~ In r (map e_ref L) ->
  abs (fs_heap st) r = Some c -> same_spectra c B -> fit_ready d B ->
  (forall dd', dget name (fs_cache st) = Some dd' -> dd' = dd) -> (dget name (fs_cache st) = None -> dd = []) ->
  is_part sg p -> name_of h0 p = Some name -> key = cur_val ft (map Some args) G -> good_args ft V args -> conv sg p args = Ok B ->
  inv ((r, pt_own p, B) :: L) (fs_with_cache st (dset name (dset key (r, pt_own p) dd) (fs_cache st))).
Proof.
  intros [I1 I2 I3 I4 I5 I6 I7 I8] GN Ge Nr A S R D1 D2 Ip Nm Ke Ga Co. constructor; cbn [fs_with_cache fs_heap fs_cache fs_cur map e_ref e_own e_base fst snd].
  - exact I1.
  - exact I2.
  - apply (frame_weaken (fun q => In q (map e_ref L))); [intros q _ K; now right|exact I3].
  - constructor; [exact Nr|exact I4].
  - intros q [<-|K]; [|now apply I5]. cbn. pose proof (abs_lt _ _ _ AD). split; [lia|]. split; [|split; [|auto]].
    + intros q pars F. destruct (pr_fixed _ _ PR _ _ F) as (s & As). apply abs_lt in As. lia.
    + intros q F. destruct (pr_signal _ _ PR _ F) as (s & As & _). apply abs_lt in As. lia.
  - intros x [<-|K]; [|now apply I6]. cbn. split; [exact R|]. exists c. split; [exact A|now left].
  - intro K. congruence.
  - intros n1 dd1 k1 r1 own1 H1 H2. destruct (String.eqb_spec n1 name) as [->|Nn].
    + rewrite dget_dset_same in H1. injection H1 as <-. destruct (String.eqb_spec k1 key) as [->|Nk].
      * rewrite dget_dset_same in H2. injection H2 as <- <-. exists sg, p, args, B. repeat (split; [assumption || reflexivity|]). now left.
      * rewrite dget_dset_other in H2 by congruence.
        destruct (dget name (fs_cache st)) as [dd'|] eqn:Dn; [|rewrite (D2 eq_refl) in H2; discriminate].
        assert (dd' = dd) as -> by now apply D1. destruct (I8 _ _ _ _ _ Dn H2) as (sg' & p' & args' & B' & K1 & K2 & K3 & K4 & K5 & K6 & K7).
        exists sg', p', args', B'. repeat (split; [assumption|]). now right.
    + rewrite dget_dset_other in H1 by congruence. destruct (I8 _ _ _ _ _ H1 H2) as (sg' & p' & args' & B' & K1 & K2 & K3 & K4 & K5 & K6 & K7).
      exists sg', p', args', B'. repeat (split; [assumption|]). now right.
Qed.
Lemma part_names sg sg' p p' n : G <> [] -> is_part sg p -> is_part sg' p' -> name_of h0 p = Some n -> name_of h0 p' = Some n -> p = p' /\ sg = sg'.
Proof.
  intros GN I I' N N'. destruct (pr_names _ _ PR GN) as [ND _]. unfold all_parts in ND. rewrite map_app in ND.
  assert (X : forall q q', In q (ft_floating ft) -> ft_signal ft = Some q' -> name_of h0 q = Some n -> name_of h0 q' = Some n -> False).
  { intros q q' K K' E E'. rewrite K' in ND. cbn [map] in ND. apply (NoDup_remove_2 (map (name_of h0) (ft_floating ft)) [] (name_of h0 q')) in ND.
    apply ND. rewrite app_nil_r, E', <- E. now apply in_map. }
  destruct sg, sg'; cbn in I, I'.
  - split; [congruence|reflexivity].
  - exfalso. eapply X; eassumption.
  - exfalso. eapply X; eassumption.
  - split; [|reflexivity]. apply NoDup_app_left in ND. apply (NoDup_map_inj (name_of h0) (ft_floating ft)); [exact ND|exact I|exact I'|congruence].
Qed.
Lemma conv_args sg p args args' : good_args ft V args -> good_args ft V args' -> cur_val ft (map Some args) G = cur_val ft (map Some args') G -> conv sg p args = conv sg p args'.
Proof.
  intros (L1 & V1 & _) (L2 & V2 & _) K. unfold conv. destruct (shown h0 (pt_ref p)); [|reflexivity]. cbn [rbind].
  assert (E : forall i q, In i G -> nth_error ps i = Some q -> nth_error args i = nth_error args' i) by (apply (key_inj ft V); [exact DP|exact V1|exact V2|congruence|exact K]).
  destruct sg; [now apply apply_last_args|now apply apply_values_args].
Qed.
Lemma inv_touch L st name : inv L st ->
  inv L (fs_with_cache st (dset name (match dget name (fs_cache st) with Some x => x | None => [] end) (fs_cache st))).
Proof.
  intros [I1 I2 I3 I4 I5 I6 I7 I8]. constructor; auto. cbn [fs_with_cache fs_cache]. intros n1 dd1 k1 r1 own1 H1 H2.
  destruct (String.eqb_spec n1 name) as [->|Nn]; [|rewrite dget_dset_other in H1 by congruence; eapply I8; eassumption].
  rewrite dget_dset_same in H1. destruct (dget name (fs_cache st)) as [x|] eqn:D; injection H1 as <-; [eapply I8; eassumption|discriminate].
Qed.
Lemma DV : derives ps G. Proof. intros i p I P. exact (pr_global ft h0 PR i p I P). Qed.
Lemma apply_all_new args l : l <> [] -> derives ps l -> nonzero ps args -> forall r st cur r',
  wf_heap (fs_heap st) -> fs_cur st = map Some args -> abs (fs_heap st) r = Some cur -> snd (apply_all ft l r st) = Ok r' -> length (h_objs (fs_heap st)) <= r'.
Proof.
  intros Nl D NZ r st cur r' W C A H. destruct l as [|i l]; [congruence|]. cbn [apply_all] in H. unfold mbind in H.
  destruct (nth_error ps i) as [p|] eqn:P. 2:{ unfold apply_to in H. rewrite P in H. discriminate. }
  assert (Ev : nth_error (fs_cur st) i = option_map Some (nth_error args i)) by (rewrite C; apply nth_error_map).
  destruct (nth_error args i) as [v|] eqn:Va; cbn in Ev. 2:{ unfold apply_to in H. rewrite P, Ev in H. discriminate. }
  destruct (D i p (or_introl eq_refl) P) as (f & K). assert (Sf : sees (KDerive f)). { rewrite <- K. apply SE. now apply nth_error_In in P. }
  destruct (apply_derive ft i p f v r st cur cur W A P Ev K Sf (same_refl _)) as (R & R1).
  destruct (apply_to ft i r st) as [st1 [r1|e1]]; [|discriminate]. specialize (R1 r1 eq_refl).
  destruct R as (Q1 & Q2 & Q3 & Q4 & Q5). cbn [fst snd] in *. destruct (apply_value (KDerive f) v cur) as [s1|]; [|contradiction]. destruct Q5 as (_ & c & Ac & Sc).
  destruct (apply_all_ran ft args l SE NZ r1 st1 c c Q3 (eq_trans Q2 C) Ac (or_introl (same_refl _))) as ((_ & _ & _ & _ & Z) & _).
  rewrite H in Z. destruct (apply_values ps args l c); [|contradiction]. destruct Z as (Z & _). pose proof (f_len _ _ _ Q4). lia.
Qed.
Lemma no_first_rate l : derives ps l -> first_rate ps l -> False.
Proof. destruct l as [|i l]; [intros _ []|]. intros D (p & P & K). destruct (D i p (or_introl eq_refl) P) as (f & E). congruence. Qed.
Lemma apply_last_kept args l : derives ps l -> forall s t u, apply_last ps args l s t = Ok u -> s_cfg s = s_cfg t -> ashape (s_data s) = ashape (s_data t) -> s_decays s = s_decays t ->
  s_cfg u = s_cfg s /\ ashape (s_data u) = ashape (s_data s) /\ s_decays u = s_decays s.
Proof.
  induction l as [|i l IH]; intros D s t u H E1 E2 E3; cbn [apply_last] in H; [injection H as <-; auto|].
  cbn [apply_values] in H. destruct (nth_error ps i) as [p|] eqn:P; [|discriminate]. destruct (nth_error args i) as [v|]; [|discriminate].
  destruct (D i p (or_introl eq_refl) P) as (f & K). unfold rbind in H. destruct (apply_value (q_kind p) v s) as [s'|] eqn:Ev; [|discriminate].
  apply apply_value_kept in Ev as (K1 & K2 & K3). apply (IH (fun j q I => D j q (or_intror I)) s s' u H); [congruence..|symmetry; apply K3; congruence].
Qed.
Lemma make_ok sg p st args s : G <> [] -> wf_heap (fs_heap st) -> fs_cur st = map Some args -> good_args ft V args -> abs (fs_heap st) (pt_ref p) = Some s -> abs h0 (pt_ref p) = Some s ->
  fs_cache (fst (make sg p st)) = fs_cache st /\ fs_cur (fst (make sg p st)) = fs_cur st /\ wf_heap (fs_heap (fst (make sg p st))) /\
  frame (fun _ => False) (fs_heap st) (fs_heap (fst (make sg p st))) /\
  match snd (make sg p st), conv sg p args with
  | Ok r', Ok B => length (h_objs (fs_heap st)) <= r' /\ (exists c, abs (fs_heap (fst (make sg p st))) r' = Some c /\ same_spectra c B) /\ s_cfg B = s_cfg s /\ ashape (s_data B) = ashape (s_data s)
  | Err e, Err f => e = f
  | _, _ => False
  end.
Proof.
  intros GN W C (_ & _ & NZ) A A0. unfold conv, shown. rewrite A0. cbn [rbind]. destruct sg; cbn [make].
  - destruct (apply_each_ran ft args G SE DV (pt_ref p) st s s (pt_ref p) s W C A (same_refl _) (abs_lt _ _ _ A) A s (same_refl _)) as (Z1 & Z2 & Z3 & Z4 & Z5).
    refine (conj Z1 (conj Z2 (conj Z3 (conj Z4 _)))). destruct (snd _) as [r'|]; destruct (apply_last ps args G s s) as [B|] eqn:E; try contradiction; [|exact Z5].
    destruct Z5 as ([[K _]|Z5] & Z6); [congruence|]. split; [exact Z5|]. split; [exact Z6|].
    destruct (apply_last_kept args G DV s s B E eq_refl eq_refl eq_refl) as (K1 & K2 & _). auto.
  - destruct (apply_all_ran ft args G SE NZ (pt_ref p) st s s W C A (or_introl (same_refl _))) as ((Z1 & Z2 & Z3 & Z4 & Z5) & _).
    refine (conj Z1 (conj Z2 (conj Z3 (conj _ _)))).
    + apply (frame_weaken (fun x => pt_ref p = x /\ first_rate ps G)); [|exact Z4]. intros r _ [_ K]. exact (no_first_rate G DV K).
    + pose proof (apply_all_new args G GN DV NZ (pt_ref p) st s) as N. destruct (snd _) as [r'|]; destruct (apply_values ps args G s) as [B|] eqn:E; try contradiction; [|exact Z5].
      destruct Z5 as (_ & Z6). split; [now apply N|]. split; [exact Z6|]. now apply apply_values_kept in E.
Qed.
Lemma part_there sg p : G <> [] -> is_part sg p -> exists s n, abs h0 (pt_ref p) = Some s /\ fit_ready d s /\ snd (get_background_name s) = Ok n /\ name_of h0 p = Some n.
Proof.
  intros GN I. assert (J : In p (all_parts ft)). { unfold all_parts. apply in_or_app. destruct sg; [right; cbn in I; rewrite I; now left|now left]. }
  destruct (RD p) as (s & A & R). { destruct sg; [right; auto|now left]. }
  destruct (pr_names _ _ PR GN) as [_ N]. exists s. unfold name_of. rewrite A. destruct (snd (get_background_name s)) as [n|] eqn:E; [now exists n|].
  exfalso. apply N. apply in_map_iff. exists p. split; [|exact J]. unfold name_of. now rewrite A, E.
Qed.
Lemma through_ok L st sg p args : inv L st -> G <> [] -> is_part sg p -> fs_cur st = map Some args -> good_args ft V args ->
  exists L', incl L L' /\ inv L' (fst (through_cache ft p (make sg p) st)) /\ fs_cur (fst (through_cache ft p (make sg p) st)) = fs_cur st /\
  match snd (through_cache ft p (make sg p) st), conv sg p args with
  | Ok (r, own), Ok B => own = pt_own p /\ In (r, own, B) L'
  | Err e, Err f => e = f
  | _, _ => False
  end.
Proof.
  intros I GN Ip C Ga. destruct (part_there sg p GN Ip) as (s & name & A0 & R & E & Nm).
  pose proof (original_there L st _ _ I GN A0) as A. unfold through_cache, mbind, look, mlift. rewrite A, E.
  set (dd := match dget name (fs_cache st) with Some x => x | None => [] end).
  set (key := cur_val ft (fs_cur st) G). set (st1 := fs_with_cache st (dset name dd (fs_cache st))).
  assert (I1 : inv L st1) by exact (inv_touch L st name I). cbn zeta.
  destruct (dget key dd) as [[r own]|] eqn:Dk.
  - exists L. split; [apply incl_refl|]. split; [exact I1|]. split; [reflexivity|]. cbn [fst snd].
    destruct (i_cache _ _ I1 name dd key r own) as (sg' & p' & args' & B & K1 & K2 & K3 & K4 & K5 & K6 & K7); [cbn; apply dget_dset_same|exact Dk|].
    destruct (part_names sg sg' p p' name GN Ip K1 Nm K2) as [<- <-].
    rewrite (conv_args sg p args args' Ga K4), K6. { auto. } unfold key in K3. now rewrite C in K3.
  - destruct (make_ok sg p st1 args s GN (i_wf _ _ I1) C Ga A A0) as (Z1 & Z2 & Z3 & Z4 & Z5).
    assert (I2 : inv L (fst (make sg p st1))).
    { apply (inv_step L st1 _ (fun _ => False) I1 Z1); [now rewrite Z2|exact Z3|exact Z4| |]; [intros x _; now left|intros r []]. }
    destruct (make sg p st1) as [st2 [r|e]]; cbn [fst snd] in *.
    2:{ exists L. split; [apply incl_refl|]. split; [exact I2|]. split; [exact Z2|exact Z5]. }
    destruct (conv sg p args) as [B|] eqn:Co; [|contradiction]. destruct Z5 as (Ge & (c & Ac & Sc) & K1 & K2).
    exists ((r, pt_own p, B) :: L). split; [apply incl_tl, incl_refl|]. split; [|split; [exact Z2|split; [reflexivity|now left]]].
    pose proof (f_len _ _ _ (i_frame _ _ I)) as Len. unfold st1 in Ge. cbn [fs_with_cache fs_heap] in Ge.
    apply (inv_add L st2 name dd key r p sg args B c I2 GN); [lia| |exact Ac|exact Sc|now apply (ready_same d s)| | |exact Ip|exact Nm| |exact Ga|exact Co].
    + intro Ir. apply in_map_iff in Ir as (x & <- & Ix). destruct (i_live _ _ I _ Ix) as (_ & z & Az & _). apply abs_lt in Az. lia.
    + intros dd'. rewrite Z1. unfold st1. cbn [fs_with_cache fs_cache]. rewrite dget_dset_same. congruence.
    + rewrite Z1. unfold st1. cbn [fs_with_cache fs_cache]. rewrite dget_dset_same. discriminate.
    + unfold key. now rewrite C.
Qed.
(** ** The sum *)
Definition opt_eq (x y : option ndarray) : Prop := match x, y with Some a, Some b => arr_eq a b | None, None => True | _, _ => False end.
Definition good {A} (R : A -> A -> Prop) (L : list entry) (st : fstate) (x : fstate * res A) (y : res A) : Prop :=
  exists L', incl L L' /\ inv L' (fst x) /\ fs_cur (fst x) = fs_cur st /\ res_eq R (snd x) y.
Lemma add_to_ext acc acc' a a' : opt_eq acc acc' -> arr_eq a a' -> res_eq arr_eq (add_to acc a) (add_to acc' a').
Proof.
  intros H E. destruct acc as [b|], acc' as [b'|]; cbn in H; try contradiction; [|exact E]. cbn [add_to].
  pose proof H as [S1 _]. pose proof E as [S2 _]. rewrite S1, S2. destruct (list_eq_dec _ _ _) as [K|]; [|reflexivity].
  cbn. apply aplus_ext; [exact H|exact E|congruence].
Qed.
Lemma floating_split args p : floating_contribution ft h0 args p =
  rbind (conv false p args) (fun B => rbind (apply_values ps args (pt_own p) B) (nd_project (pt_pars p))).
Proof.
  unfold floating_contribution, contribution, conv. destruct (shown h0 (pt_ref p)) as [s|]; [|reflexivity]. cbn [rbind]. rewrite apply_values_app.
  destruct (apply_values ps args G s); reflexivity.
Qed.
Lemma show_live L st p args r own B acc acc' : inv L st -> In (r, own, B) L -> fs_cur st = map Some args -> good_args ft V args -> opt_eq acc acc' ->
  good arr_eq L st ((let! r := apply_all ft own r in let! _ := match_data ft r in let! a := projection r (pt_pars p) in mlift (add_to acc a)) st)
    (rbind (rbind (apply_values ps args own B) (nd_project (pt_pars p))) (add_to acc')).
Proof.
  intros I J C Ga Eo. destruct (use_live L st r own B args I J C Ga) as (I1 & C1 & V1). unfold good. exists L. split; [apply incl_refl|].
  revert I1 C1 V1. unfold use, mbind, mret, projection, look, mlift.
  destruct (apply_all ft own r st) as [st1 [r1|e1]]; cbn [fst snd]; intros I1 C1 V1.
  2:{ split; [exact I1|]. split; [exact C1|]. destruct (apply_values ps args own B); cbn; [contradiction|exact V1]. }
  destruct (match_data ft r1 st1) as [st2 [[]|e2]]; cbn [fst snd] in *.
  2:{ split; [exact I1|]. split; [exact C1|]. destruct (apply_values ps args own B); cbn; [contradiction|exact V1]. }
  destruct (apply_values ps args own B) as [s|]; [|contradiction]. destruct V1 as (s' & As & Ss). unfold mbind. rewrite As. cbn [rbind].
  pose proof (nd_project_ext (pt_pars p) s' s Ss) as E. destruct (nd_project (pt_pars p) s') as [a|], (nd_project (pt_pars p) s) as [a'|]; cbn in E; try contradiction; cbn [fst snd rbind].
  - split; [exact I1|]. split; [exact C1|]. now apply add_to_ext.
  - split; [exact I1|]. split; [exact C1|]. exact E.
Qed.
Lemma add_floating_ok L st p args acc acc' : inv L st -> In p (ft_floating ft) -> fs_cur st = map Some args -> good_args ft V args -> opt_eq acc acc' ->
  good arr_eq L st (add_floating ft p acc st) (rbind (floating_contribution ft h0 args p) (add_to acc')).
Proof.
  intros I Ip C Ga Eo. rewrite floating_split. unfold add_floating. destruct (list_eq_dec Nat.eq_dec G []) as [GN|GN].
  - rewrite GN. unfold mbind at 1, mret at 1. cbn [fst snd]. destruct (i_float _ _ I GN p Ip) as (s & A & J).
    assert (E : conv false p args = Ok s). { unfold conv, shown. rewrite A. cbn [rbind]. now rewrite GN. } rewrite E. cbn [rbind].
    exact (show_live L st p args _ _ s acc acc' I J C Ga Eo).
  - assert (E : (match G with [] => mret (pt_ref p, pt_own p) | gs => through_cache ft p (apply_all ft gs (pt_ref p)) end) = through_cache ft p (make false p)).
    { cbn [make]. destruct G; [congruence|reflexivity]. } rewrite E. clear E.
    destruct (through_ok L st false p args I GN Ip C Ga) as (L1 & Inc & I1 & C1 & V1). unfold mbind at 1.
    destruct (through_cache ft p (make false p) st) as [st1 [[r own]|e]]; cbn [fst snd] in *.
    + destruct (conv false p args) as [B|]; [|contradiction]. destruct V1 as (-> & J). cbn [rbind].
      destruct (show_live L1 st1 p args r _ B acc acc' I1 J (eq_trans C1 C) Ga Eo) as (L2 & Inc2 & I2 & C2 & V2).
      exists L2. split; [eapply incl_tran; eassumption|]. split; [exact I2|]. split; [congruence|exact V2].
    + exists L1. split; [exact Inc|]. split; [exact I1|]. split; [exact C1|]. destruct (conv false p args); cbn; [contradiction|exact V1].
Qed.
Lemma sum_parts_cons acc x l : sum_parts acc (x :: l) = rbind (rbind x (add_to acc)) (fun b => sum_parts (Some b) l).
Proof.
  cbn [sum_parts]. destruct x as [a|]; [|reflexivity]. cbn [rbind]. destruct acc as [b|]; [|reflexivity]. cbn [add_to].
  destruct (list_eq_dec _ _ _); reflexivity.
Qed.
Lemma sum_parts_app l m : forall acc, sum_parts acc (l ++ m) = rbind (sum_parts acc l) (fun a => sum_parts a m).
Proof.
  induction l as [|x l IH]; intro acc; [reflexivity|]. cbn [app]. rewrite !sum_parts_cons. destruct (rbind x (add_to acc)) as [b|]; [|reflexivity].
  cbn [rbind]. apply IH.
Qed.
Lemma add_floatings_ok args : good_args ft V args -> forall l L st acc acc', inv L st -> incl l (ft_floating ft) -> fs_cur st = map Some args -> opt_eq acc acc' ->
  good opt_eq L st (add_floatings ft l acc st) (sum_parts acc' (map (floating_contribution ft h0 args) l)).
Proof.
  intro Ga. induction l as [|p l IH]; intros L st acc acc' I Il C Eo.
  - exists L. split; [apply incl_refl|]. split; [exact I|]. split; [reflexivity|exact Eo].
  - cbn [map]. rewrite sum_parts_cons. cbn [add_floatings]. unfold mbind.
    destruct (add_floating_ok L st p args acc acc' I (Il p (or_introl eq_refl)) C Ga Eo) as (L1 & Inc1 & I1 & C1 & V1).
    destruct (add_floating ft p acc st) as [st1 [a|e]]; cbn [fst snd] in *; destruct (rbind (floating_contribution ft h0 args p) (add_to acc')) as [b|]; cbn in V1; try contradiction.
    + cbn [rbind]. destruct (IH L1 st1 (Some a) (Some b) I1 (fun q H => Il q (or_intror H)) (eq_trans C1 C) V1) as (L2 & Inc2 & I2 & C2 & V2).
      exists L2. split; [eapply incl_tran; eassumption|]. split; [exact I2|]. split; [congruence|exact V2].
    + exists L1. split; [exact Inc1|]. split; [exact I1|]. split; [exact C1|]. exact V1.
Qed.

(** ** The signal *)
Lemma scale_live L st r own B n : inv L st -> In (r, own, B) L -> n <> 0%Qc -> s_decays B = n ->
  exists st', on_heap (h_scale n r) st = (st', Ok tt) /\ inv L st' /\ fs_cur st' = fs_cur st /\ exists c, abs (fs_heap st') r = Some c /\ same_spectra c B.
Proof.
  intros I J Nn Dn. destruct (i_live _ _ I _ J) as (R & c & A & O). cbn in A, O, R.
  assert (E : res_eq same_spectra (apply_value KRate n c) (Ok B)).
  { assert (E0 : res_eq same_spectra (apply_value KRate n B) (Ok B)).
    { assert (D : s_decays B <> 0%Qc) by congruence. unfold apply_value, scale. subst n. rewrite qdiv_ok by exact D. cbn.
      split; [repeat split|]. intros idx _. cbn. field. exact D. }
    destruct O as [O|(_ & n1 & s1 & N1 & S1 & O)].
    - pose proof (scale_value n c B O) as K. destruct (apply_value KRate n c), (apply_value KRate n B); cbn in *; try contradiction. eapply same_trans; eassumption.
    - pose proof (rate_scaled n1 B s1 c n N1 S1 O) as K. destruct (apply_value KRate n c), (apply_value KRate n B); cbn in *; try contradiction. eapply same_trans; eassumption. }
  pose proof (scale_call n r (fs_heap st) c (i_wf _ _ I) A) as Gc. pose proof (frame_effect r _ _ _ Gc (ex_intro _ c A)) as F.
  destruct Gc as (_ & W1 & (c1 & A1 & S1) & O1). unfold on_heap. cbn [apply_value] in E.
  destruct (h_scale n r (fs_heap st)) as [h1 e1]. cbn [fst snd] in *. subst e1. destruct (scale n c) as [t [e|]]; cbn in E; [contradiction|]. cbn [fst snd] in *.
  assert (S2 : same_spectra c1 B) by (eapply same_trans; eassumption).
  eexists. split; [reflexivity|]. split; [|split; [reflexivity|now exists c1]].
  apply (inv_step L st (fs_with_heap st h1) (eq r) I eq_refl eq_refl W1 F).
  - intros x Ix. destruct (Nat.eq_dec r (e_ref x)) as [Ex|Nx]; [right|left; exact Nx].
    assert (x = (r, own, B)) as -> by (apply (entry_unique L); [exact (i_nodup _ _ I)|exact Ix|exact J|now symmetry]).
    exists c1. split; [exact A1|now left].
  - intros q <- _. exact (in_map e_ref _ _ J).
Qed.
Lemma signal_ref_ok L st p args : inv L st -> ft_signal ft = Some p -> fs_cur st = map Some args -> good_args ft V args ->
  exists L', incl L L' /\ inv L' (fst (signal_ref ft p st)) /\ fs_cur (fst (signal_ref ft p st)) = fs_cur st /\
  match snd (signal_ref ft p st), conv true p args with
  | Ok r, Ok B => exists c, abs (fs_heap (fst (signal_ref ft p st))) r = Some c /\ same_spectra c B
  | Err e, Err f => e = f
  | _, _ => False
  end.
Proof.
  intros I Ip C Ga. destruct (pr_signal _ _ PR p Ip) as (s & A & Ds). unfold signal_ref. destruct (list_eq_dec Nat.eq_dec G []) as [GN|GN].
  - assert (E : conv true p args = Ok s). { unfold conv, shown. rewrite A. cbn [rbind]. now rewrite GN. } rewrite E, GN. cbn [mret fst snd].
    exists L. split; [apply incl_refl|]. split; [exact I|]. split; [reflexivity|]. exists s. split; [exact (signal_there L st p s I Ip A)|apply same_refl].
  - specialize (Ds GN).
    assert (E : forall k : list nat -> M nat, (match G with [] => mret (pt_ref p) | gs => k gs end) = k G) by (intro k; destruct G; [congruence|reflexivity]).
    rewrite (E (fun gs => let! s := look (pt_ref p) in let! x := through_cache ft p (apply_each ft gs (pt_ref p) (pt_ref p)) in
      let! _ := match_data ft (fst x) in let! _ := on_heap (h_scale (s_decays s) (fst x)) in mret (fst x))). clear E. cbv beta.
    change (apply_each ft G (pt_ref p) (pt_ref p)) with (make true p). unfold mbind, look, mret. cbv beta. rewrite (signal_there L st p s I Ip A).
    destruct (through_ok L st true p args I GN Ip C Ga) as (L1 & Inc & I1 & C1 & V1).
    destruct (through_cache ft p (make true p) st) as [st1 [[r own]|e]]; cbn [fst snd] in *.
    2:{ exists L1. split; [exact Inc|]. split; [exact I1|]. split; [exact C1|]. destruct (conv true p args); cbn; [contradiction|exact V1]. }
    destruct (conv true p args) as [B|] eqn:Co; [|contradiction]. destruct V1 as (-> & J).
    destruct (i_live _ _ I1 _ J) as (R & c & Ac & O).
    destruct (match_live L1 st1 r _ B I1 J c Ac) as (st2 & E2 & I2 & C2 & s2 & A2 & S2). rewrite E2.
    assert (DB : s_decays B = s_decays s).
    { revert Co. unfold conv, shown. rewrite A. cbn [rbind]. intro Co. now destruct (apply_last_kept args G DV s s B Co eq_refl eq_refl eq_refl) as (_ & _ & K). }
    destruct (scale_live L1 st2 r _ B (s_decays s) I2 J Ds DB) as (st3 & E3 & I3 & C3 & c3 & A3 & S3). rewrite E3. cbn [fst snd].
    exists L1. split; [exact Inc|]. split; [exact I3|]. split; [congruence|]. now exists c3.
Qed.
Lemma add_signal_ok L st args a a' : inv L st -> fs_cur st = map Some args -> good_args ft V args -> arr_eq a a' ->
  good opt_eq L st (add_signal ft (Some a) st) (sum_parts (Some a') (match ft_signal ft with Some p => [last_contribution ft h0 args p] | None => [] end)).
Proof.
  intros I C Ga Ea. unfold add_signal. case_eq (ft_signal ft); [intros p Sg|intro Sg].
  2:{ exists L. split; [apply incl_refl|]. split; [exact I|]. split; [reflexivity|exact Ea]. }
  destruct (signal_ref_ok L st p args I Sg C Ga) as (L1 & Inc & I1 & C1 & V1). unfold mbind at 1.
  assert (E : last_contribution ft h0 args p = rbind (conv true p args) (nd_project (pt_pars p))).
  { unfold last_contribution, conv. destruct (shown h0 (pt_ref p)) as [s|]; reflexivity. }
  rewrite sum_parts_cons, E. clear E. destruct (signal_ref ft p st) as [st1 [r|e]]; cbn [fst snd] in *; destruct (conv true p args) as [B|]; try contradiction.
  2:{ exists L1. split; [exact Inc|]. split; [exact I1|]. split; [exact C1|]. exact V1. }
  destruct V1 as (c & Ac & Sc). unfold mbind, projection, look, mlift, mbind, mret. rewrite Ac. cbn [rbind].
  pose proof (nd_project_ext (pt_pars p) c B Sc) as E. destruct (nd_project (pt_pars p) c) as [x|], (nd_project (pt_pars p) B) as [y|]; cbn in E; try contradiction; cbn [rbind].
  2:{ exists L1. split; [exact Inc|]. split; [exact I1|]. split; [exact C1|]. exact E. }
  pose proof (add_to_ext (Some a) (Some a') x y Ea E) as K. destruct (add_to (Some a) x) as [z|], (add_to (Some a') y) as [z'|]; cbn in K; try contradiction; cbn [rbind];
    (exists L1; split; [exact Inc|]; split; [exact I1|]; split; [exact C1|]; exact K).
Qed.

(** ** One call and any history of calls *)
Definition pair_eq (x y : ndarray * ndarray) : Prop := arr_eq (fst x) (fst y) /\ arr_eq (snd x) (snd y).
Lemma set_currents_ok : forall args cur, length args = length cur -> set_currents args cur = (map Some args, None).
Proof.
  induction args as [|v args IH]; intros [|c cur] H; try discriminate; [reflexivity|]. cbn. rewrite IH by (cbn in H; lia). reflexivity.
Qed.
Lemma sum_parts_some l : forall a e, sum_parts (Some a) l = Ok e -> e <> None.
Proof.
  induction l as [|x l IH]; intros a e H; [cbn in H; congruence|]. rewrite sum_parts_cons in H. destruct (rbind x (add_to (Some a))) as [b|]; [|discriminate].
  cbn [rbind] in H. now apply IH in H.
Qed.
Lemma arr_refl a : arr_eq a a. Proof. split; auto. Qed.
Lemma spectra_of_ok L st args : inv L st -> good_args ft V args -> forall x, spectra_of ft args st = x ->
  exists L', inv L' (fst x) /\ fs_cur (fst x) = map Some args /\ res_eq pair_eq (snd x) (fitted_last ft h0 args).
Proof.
  intros I Ga x. unfold spectra_of, fitted_last, observed, expected. case_eq (ft_floating ft); [intro FL; destruct (pr_some _ _ PR FL)|intros p0 fl FL]. rewrite <- FL.
  pose proof Ga as (Le & _). unfold mbind at 1. rewrite set_currents_ok by (rewrite (i_cur _ _ I); exact Le). cbn [fst snd].
  set (st1 := fs_with_cur st (map Some args)). assert (C : fs_cur st1 = map Some args) by reflexivity.
  assert (I1 : inv L st1). { apply (inv_step L st st1 (fun _ => False) I); [reflexivity| |exact (i_wf _ _ I)|apply frame_refl|intros; now left|intros r []]. cbn. rewrite map_length, (i_cur _ _ I). exact Le. }
  clearbody st1. unfold mbind at 1, projection at 1, mbind at 1, look at 1, mlift at 1. rewrite (data_there _ _ I1).
  unfold shown at 1. rewrite AD. cbn [rbind]. destruct (nd_project (ft_data_pars ft) d) as [obs|e]; [|intros <-; exists L; split; [exact I1|split; [exact C|reflexivity]]]. cbn [rbind].
  assert (Fx : exists accr, (match ft_fixed ft with None => mret None | Some (r, pars) => let! a := projection r pars in mret (Some a) end) st1 = (st1, accr) /\
                 accr = match ft_fixed ft with None => Ok None | Some (r, pars) => do s <- shown h0 r; rmap Some (nd_project pars s) end).
  { case_eq (ft_fixed ft); [intros [r pars] Ff|intros _; eexists; split; reflexivity]. destruct (pr_fixed _ _ PR _ _ Ff) as (s & As).
    unfold mbind, projection, mbind, look, mlift, mret, shown. rewrite (fixed_there L st1 r pars s I1 Ff As), As. cbn [rbind].
    destruct (nd_project pars s); eexists; split; reflexivity. }
  unfold mbind at 1. destruct Fx as (accr & -> & <-). destruct accr as [acc|e]; [|intros <-; exists L; split; [exact I1|split; [exact C|reflexivity]]]. cbn [rbind].
  assert (Ea : opt_eq acc acc) by (destruct acc; cbn; [apply arr_refl|exact Logic.I]).
  destruct (add_floatings_ok args Ga (ft_floating ft) L st1 acc acc I1 (incl_refl _) C Ea) as (L2 & _ & I2 & C2 & V2).
  rewrite sum_parts_app. unfold mbind at 1. destruct (add_floatings ft (ft_floating ft) acc st1) as [st2 [e2|e2]]; cbn [fst snd] in *;
    destruct (sum_parts acc (map (floating_contribution ft h0 args) (ft_floating ft))) as [e3|e3] eqn:SP; cbn in V2; try contradiction.
  2:{ intros <-. exists L2. split; [exact I2|]. split; [cbn; congruence|exact V2]. }
  assert (Ns : e3 <> None).
  { rewrite FL in SP. cbn [map] in SP. rewrite sum_parts_cons in SP. destruct (rbind (floating_contribution ft h0 args p0) (add_to acc)) as [b|]; [|discriminate].
    cbn [rbind] in SP. now apply sum_parts_some in SP. }
  destruct e3 as [e3|]; [|congruence]. destruct e2 as [e2|]; [|contradiction]. cbn [rbind].
  destruct (add_signal_ok L2 st2 args e2 e3 I2 (eq_trans C2 C) Ga V2) as (L3 & _ & I3 & C3 & V3). unfold mbind at 1.
  destruct (add_signal ft (Some e2) st2) as [st3 [e4|e4]]; cbn [fst snd] in *;
    destruct (sum_parts (Some e3) (match ft_signal ft with Some p => [last_contribution ft h0 args p] | None => [] end)) as [e5|e5]; cbn in V3; try contradiction.
  - destruct e4 as [e4|], e5 as [e5|]; cbn in V3; try contradiction; intros <-; exists L3; (split; [exact I3|]); (split; [cbn; congruence|]); cbn; [split; [apply arr_refl|exact V3]|reflexivity].
  - intros <-. exists L3. split; [exact I3|]. split; [cbn; congruence|exact V3].
Qed.
Definition live0 : list entry :=
  match G with
  | [] => map (fun p => (pt_ref p, pt_own p, match abs h0 (pt_ref p) with Some s => s | None => d end)) (ft_floating ft)
  | _ => []
  end.
Lemma start_inv : inv live0 (f_start ft h0).
Proof.
  assert (Mp : incl (map e_ref live0) (map pt_ref (ft_floating ft))).
  { unfold live0. destruct G; [|intros r []]. rewrite map_map. apply incl_refl. }
  constructor; cbn [f_start fs_heap fs_cache fs_cur].
  - exact (pr_heap _ _ PR).
  - apply map_length.
  - apply frame_refl.
  - unfold live0. destruct G; [|constructor]. rewrite map_map. exact (pr_floating_nodup _ _ PR).
  - intros r K. split; [|split; [|split]].
    + intros ->. now apply (pr_data_apart _ _ PR), Mp.
    + intros q pars F ->. now apply (pr_fixed_apart _ _ PR _ _ F), Mp.
    + intros p F ->. now apply (pr_signal_apart _ _ PR _ F), Mp.
    + intro GN. revert K. unfold live0. destruct G; [congruence|intros []].
  - intros x. unfold live0. destruct G; [|intros []]. intro K. apply in_map_iff in K as (p & <- & K). destruct (RD p (or_introl K)) as (s & A & R).
    cbn. rewrite A. split; [exact R|]. exists s. split; [reflexivity|left; apply same_refl].
  - intros GN p K. destruct (RD p (or_introl K)) as (s & A & R). exists s. split; [exact A|]. unfold live0. rewrite GN. apply in_map_iff. exists p. now rewrite A.
  - intros name dd key r own H. discriminate.
Qed.
Lemma run_inv l : Forall (good_args ft V) l -> forall L st, inv L st -> exists L', inv L' (f_run ft l st).
Proof.
  induction 1 as [|args l Ha _ IH]; intros L st I; [now exists L|]. cbn [f_run]. destruct (spectra_of_ok L st args I Ha _ eq_refl) as (L1 & I1 & _). now apply (IH L1).
Qed.
Lemma fitted_last_l l args : Forall (good_args ft V) l -> good_args ft V args ->
  res_eq pair_eq (snd (spectra_of ft args (f_run ft l (f_start ft h0)))) (fitted_last ft h0 args).
Proof.
  intros Hl Ha. destruct (run_inv l Hl live0 _ start_inv) as (L & I). destruct (spectra_of_ok L _ args I Ha _ eq_refl) as (L1 & _ & _ & E). exact E.
Qed.
Lemma flat_ext b x y : arr_eq x y -> flat b x = contents b y.
Proof.
  intros [S E]. unfold flat, contents. destruct b.
  - f_equal. unfold total, sum_where. rewrite filter_true, <- sum_over_all, <- S. now apply sum_over_ext.
  - rewrite c_order_all, <- S. apply map_ext_in. intros i H. apply E. now apply all_idx_valid.
Qed.
Lemma penalty_ok pen : forall pl args, length args = length pl -> total_penalty pen pl (map Some args) = Ok (penalties pen pl args).
Proof.
  induction pl as [|p pl IH]; intros [|v args] H; try discriminate; [reflexivity|]. cbn [map total_penalty penalties]. cbn in H. rewrite IH by lia.
  cbn [rbind]. destruct (q_sigma p); [reflexivity|]. f_equal. ring.
Qed.
Lemma funct_ok stat pen pb sb L st args : inv L st -> good_args ft V args -> forall x, funct ft stat pen pb sb args st = x ->
  exists L', inv L' (fst x) /\ snd x = value_of ft h0 stat pen pb sb args (fitted_last ft h0 args).
Proof.
  intros I Ga x. unfold funct, value_of. destruct (spectra_of_ok L st args I Ga _ eq_refl) as (L1 & I1 & C1 & E).
  unfold mbind. destruct (spectra_of ft args st) as [st1 [oe|e]]; cbn [fst snd] in *; destruct (fitted_last ft h0 args) as [oe'|]; cbn in E; try contradiction; cbn [rbind].
  2:{ intros <-. exists L1. split; [exact I1|now rewrite <- E]. }
  destruct E as [E1 E2]. rewrite <- (flat_ext sb _ _ E1), <- (flat_ext sb _ _ E2). unfold mlift, look, mret.
  destruct (stat _ _) as [t|]; [|intros <-; exists L1; split; [exact I1|reflexivity]]. cbn [rbind].
  rewrite C1. destruct Ga as (Le & _). rewrite penalty_ok by exact Le. rewrite (data_there _ _ I1). unfold shown. rewrite AD. cbn [rbind]. unfold per_bin_shape.
  destruct pb.
  - destruct (areshape _ _); intros <-; exists L1; split; [exact I1|reflexivity|exact I1|reflexivity].
  - intros <-. exists L1. split; [exact I1|reflexivity].
Qed.
Lemma funct_l stat pen pb sb l args : Forall (good_args ft V) l -> good_args ft V args ->
  snd (funct ft stat pen pb sb args (f_run ft l (f_start ft h0))) = value_of ft h0 stat pen pb sb args (fitted_last ft h0 args).
Proof.
  intros Hl Ha. destruct (run_inv l Hl live0 _ start_inv) as (L & I). destruct (funct_ok stat pen pb sb L _ args I Ha _ eq_refl) as (L1 & _ & E). exact E.
Qed.
Lemma calls_ok stat pen pb sb : forall l, Forall (good_args ft V) l -> forall rs,
  Forall2 (fun v r => value_of ft h0 stat pen pb sb v (fitted_last ft h0 v) = Ok r) l rs -> forall L st, inv L st ->
  exists o, calls (objective ft stat pen pb sb) st l = (o, rs, None).
Proof.
  induction 1 as [|v l Hv _ IH]; intros rs F L st I; inversion F as [|x y l' rs' E F']; subst; [now exists st|].
  cbn [calls]. unfold objective at 1. destruct (funct_ok stat pen pb sb L st v I Hv _ eq_refl) as (L1 & I1 & E1). rewrite E in E1.
  destruct (funct ft stat pen pb sb v st) as [st1 r]. cbn [fst snd] in *. subst r. destruct (IH _ F' L1 st1 I1) as (o & ->). now exists o.
Qed.
Lemma search_calls stat pen pb sb l rs : Forall (good_args ft V) l ->
  Forall2 (fun v r => value_of ft h0 stat pen pb sb v (fitted_last ft h0 v) = Ok r) l rs ->
  exists o, calls (objective ft stat pen pb sb) (f_start ft h0) l = (o, rs, None).
Proof. intros H F. exact (calls_ok stat pen pb sb l H rs F live0 _ start_inv). Qed.
End Run.

Lemma history_l ft h V l args : prepared ft h -> distinct_printing ft V -> Forall (good_args ft V) l -> good_args ft V args ->
  same_res same_pair (snd (spectra_of ft args (f_run ft l (f_start ft h)))) (fitted_last ft h args).
Proof. intros P D Hl Ha. destruct (pr_data _ _ P) as (d & A & W & R). exact (fitted_last_l ft h V d P D A W R l args Hl Ha). Qed.
Lemma objective_l ft h V stat pen pb sb l args : prepared ft h -> distinct_printing ft V -> Forall (good_args ft V) l -> good_args ft V args ->
  snd (funct ft stat pen pb sb args (f_run ft l (f_start ft h))) = value_of ft h stat pen pb sb args (fitted_last ft h args).
Proof. intros P D Hl Ha. destruct (pr_data _ _ P) as (d & A & W & R). exact (funct_l ft h V d P D A W R stat pen pb sb l args Hl Ha). Qed.
Lemma search_calls_l ft h V stat pen pb sb l rs : prepared ft h -> distinct_printing ft V -> Forall (good_args ft V) l ->
  Forall2 (fun v r => value_of ft h stat pen pb sb v (fitted_last ft h v) = Ok r) l rs ->
  exists o, calls (objective ft stat pen pb sb) (f_start ft h) l = (o, rs, None).
Proof. intros P D Hl Ha. destruct (pr_data _ _ P) as (d & A & W & R). exact (search_calls ft h V d P D A W R stat pen pb sb l rs Hl Ha). Qed.
(** One global parameter at most, or no signal: the last is all. *)
Lemma fitted_all ft h args : (ft_signal ft = None \/ length (global_pars ft) <= 1) -> fitted_last ft h args = fitted ft h args.
Proof.
  intro H. unfold fitted, fitted_last. destruct (observed ft h) as [o|]; [|reflexivity]. cbn [rbind]. unfold expected.
  destruct H as [->|H]; [reflexivity|]. destruct (ft_signal ft) as [p|]; [|reflexivity].
  assert (E : last_contribution ft h args p = signal_contribution ft h args p); [|now rewrite E].
  unfold last_contribution, signal_contribution, contribution. destruct (shown h (pt_ref p)) as [s|]; [|reflexivity]. cbn [rbind].
  destruct (global_pars ft) as [|i [|j l]]; [reflexivity| |cbn in H; lia]. cbn [apply_last]. destruct (apply_values (ft_pars ft) args [i] s); reflexivity.
Qed.

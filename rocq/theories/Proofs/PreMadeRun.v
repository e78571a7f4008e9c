(** Fits that load convolved spectra, after any history of calls. *)
From Coq Require Import Lia.
From Verif Require Import Model.Base Model.PyStr Model.NDArray Model.Param Model.Config Model.Spectra
  Model.Smear Model.Shift Model.Heap Model.Minimise Model.Fit Model.FitConfig Model.Store Model.Combine Model.PreConv Model.Scripts Model.PreMade.
From Verif Require Import Spec.AxisSpec Spec.ArraySpec Spec.SpectraSpec Spec.ShrinkSpec Spec.HeapSpec Spec.SearchSpec Spec.FitRunSpec Spec.FitLimitSpec Spec.PreMadeRunSpec.
From Verif Require Import Proofs.QcLemmas Proofs.NDArrayLemmas Proofs.StrLemmas Proofs.DictLemmas Proofs.ParamLemmas
  Proofs.OpsLemmas Proofs.ExtLemmas Proofs.DeriveExt Proofs.HeapLemmas Proofs.MinimiseLemmas Proofs.FitLemmas Proofs.FitPrep Proofs.HomogLemmas
  Proofs.RebinLemmas Proofs.ShrinkProps.
From Verif Require Proofs.FitRun.

(** ** The spectrum on the axes of the data *)
Lemma done_ext x y : out_eq x y -> res_eq same_spectra (done x) (done y).
Proof. destruct x as [a [f|]], y as [b [g|]]; cbn; intros [E1 E2]; cbn in *; try congruence; exact E2 || exact E1. Qed.
Lemma on_axes_ext d s s' : same_spectra s s' -> res_eq same_spectra (on_axes_of d s) (on_axes_of d s').
Proof.
  intro H. unfold on_axes_of. assert (K : s_cfg s = s_cfg s') by (destruct H as [(_ & _ & K & _) _]; exact K). rewrite K.
  destruct (data_keywords (s_cfg d) (s_cfg s') []) as [kw|]; cbn [rbind]; [|reflexivity].
  apply (res_eq_bind same_spectra); [apply done_ext, shrink_ext, H|]. intros a b E. apply done_ext, rebin_ext, E.
Qed.
Lemma mul_cfg c s t : mul c s t -> s_cfg s = s_cfg t. Proof. now intros (_ & _ & K & _). Qed.
Lemma on_axes_mul c d s t : mul c s t -> res_eq (mul c) (on_axes_of d s) (on_axes_of d t).
Proof.
  intro H. unfold on_axes_of. rewrite (mul_cfg c s t H). destruct (data_keywords (s_cfg d) (s_cfg t) []) as [kw|]; cbn [rbind]; [|reflexivity].
  apply (res_eq_bind (mul c)); [now apply shrink_mul|]. intros a b E. now apply rebin_mul.
Qed.
Lemma done_ok x t : done x = Ok t -> x = (t, None).
Proof. destruct x as [a [f|]]; cbn; intro H; [discriminate|]. injection H as ->. reflexivity. Qed.
Lemma shrink_decays kw s t : done (shrink kw s) = Ok t -> s_decays t = s_decays s.
Proof.
  intro H. apply done_ok in H. revert H. unfold shrink. destruct (shrink_check _ _); [|congruence]. destruct (shrink_pars _ _) as [c' [[|x sl]|]]; try congruence.
  destruct (aslice _ _); [|congruence]. intro H. injection H as <-. reflexivity.
Qed.
Lemma rebin_decays b s t : done (rebin b s) = Ok t -> s_decays t = s_decays s.
Proof.
  intro H. apply done_ok in H. revert H. unfold rebin.
  repeat match goal with |- context [match ?x with _ => _ end] => destruct x; try congruence end; intro H; injection H as <-; reflexivity.
Qed.
Lemma on_axes_decays d s t : on_axes_of d s = Ok t -> s_decays t = s_decays s.
Proof.
  unfold on_axes_of. destruct (data_keywords _ _ _); [|discriminate]. cbn [rbind]. destruct (done (shrink _ s)) as [u|] eqn:E; [|discriminate]. cbn [rbind]. intro H.
  apply shrink_decays in E. apply rebin_decays in H. congruence.
Qed.
Lemma scale_decays n s t : scale n s = (t, None) -> s_decays t = n.
Proof. unfold scale. destruct (qdiv n (s_decays s)); [|discriminate]. intro H. injection H as <-. reflexivity. Qed.
Lemma scale_some n s : s_decays s <> 0%Qc -> exists t, scale n s = (t, None).
Proof. intro D. unfold scale. rewrite qdiv_ok by exact D. now eexists. Qed.
(** Scaled before or after. *)
Lemma on_axes_scale d n s t m : scale n s = (t, None) -> on_axes_of d s = Ok m -> exists m', on_axes_of d t = Ok m' /\ exists m1, scale n m = (m1, None) /\ same_spectra m' m1.
Proof.
  intros E M. destruct (scale_mul n s t E) as (H & Dt & Ds). pose proof (on_axes_mul _ d s t H) as K. rewrite M in K.
  destruct (on_axes_of d t) as [m'|] eqn:M'; cbn in K; [|contradiction]. exists m'. split; [reflexivity|].
  pose proof (on_axes_decays d s m M) as Dm. pose proof (on_axes_decays d t m' M') as Dm'. destruct (scale_some n m) as (m1 & E1); [congruence|].
  exists m1. split; [exact E1|]. apply (mul_scale n m m' m1); [congruence|now rewrite Dm|congruence|exact E1].
Qed.
Lemma ready_on_axes d s : wf_spectra d -> fit_ready d s -> exists m, on_axes_of d s = Ok m /\ same_spectra m s.
Proof.
  intros WD R. unfold on_axes_of. destruct (ready_keywords d s R) as (kw & -> & B). cbn [rbind]. pose proof R as (Ws & Ne & Al & _).
  destruct (shrink_identity_l s kw Ws Ne Al B) as (s1 & E1 & S1). rewrite E1. cbn [done rbind].
  assert (R1 : fit_ready d s1). { apply (ready_same d s); [exact R|destruct S1 as [(_ & _ & K & _) _]; exact K|destruct S1 as [(_ & _ & _ & _ & _ & _ & _ & K) _]; exact K]. }
  rewrite (ready_shape d s1 WD R1). pose proof R1 as (W1 & _). destruct (rebin_identity_l s1 W1) as (s2 & E2 & S2). rewrite E2. cbn [done].
  exists s2. split; [reflexivity|]. eapply same_trans; eassumption.
Qed.

(** ** An object that shares nothing with the heap [h] *)
Record fresh (h h' : heap) (r : nat) : Prop := Fresh {
  fr_frame : frame (fun _ => False) h h';
  fr_wf : wf_heap h';
  fr_new : length (h_objs h) <= r;
  fr_own : forall o, nth_error (h_objs h') r = Some o -> length (h_cfgs h) <= o_cfg o }.
Lemma fresh_call wc r h h' x y s : fresh h h' r -> abs h' r = Some s -> good_call wc false false r h' x y -> fresh h (fst x) r.
Proof.
  intros [F W N O] A (E & W' & _). destruct (abs_split h' r s A) as (o & c & b & dd & Oo & _). specialize (E o Oo). specialize (O o Oo).
  destruct E as [e1 e2 e3 e4 e5 e6 e7 e8 e9], F as [f1 f2 f3 f4 f5]. constructor; auto.
  - constructor.
    + intros i z H. rewrite e5; [now apply f1|right]. apply nth_some_lt in H. lia.
    + intros i z H. rewrite e7; [now apply f2|now left|]. apply f2 in H. now apply nth_some_lt in H.
    + intros i z H. rewrite e9; [now apply f3|now left].
    + intros q z Nq H. rewrite e2; [now apply f4|]. apply nth_some_lt in H. lia.
    + lia.
  - intros o' H. destruct e3 as (o2 & S1 & S2 & _). assert (o2 = o') as -> by congruence. congruence.
Qed.
Lemma loaded_ok s h : wf_heap h -> fresh h (h_loaded s h) (length (h_objs h)) /\ exists c, abs (h_loaded s h) (length (h_objs h)) = Some c /\ same_spectra c s.
Proof.
  intro W. unfold h_loaded, new_obj. cbn. set (o := HSpec _ _ _ _ _ _ _ _ _). set (h' := Heap _ _ _ _).
  assert (G : grows h h' o). { split; [reflexivity|]. split; [eexists; reflexivity|]. split; eexists; reflexivity. }
  assert (Wo : wf_obj h' o).
  { split; [cbn; rewrite app_length; cbn; lia|]. split; [cbn; rewrite app_length; cbn; lia|]. exists (s_data s). split; [apply nth_app_new|apply full_bounds]. }
  split.
  - constructor; [eapply frame_grows; exact G|eapply grows_wf; eassumption|lia|]. intros o'. cbn. rewrite nth_app_new. intro H. injection H as <-. cbn. lia.
  - eexists. split.
    + apply (abs_join h' _ o (s_cfg s) (s_data s) (s_rois s)); cbn; apply nth_app_new.
    + destruct s. apply same_spectra_intro; cbn; try reflexivity. exact (vread_full _).
Qed.
Lemma fresh_scale n r h h' s t : fresh h h' r -> abs h' r = Some s -> scale n s = (t, None) ->
  exists h2, h_scale n r h' = (h2, None) /\ fresh h h2 r /\ exists c, abs h2 r = Some c /\ same_spectra c t.
Proof.
  intros F A E. pose proof (scale_call n r h' s (fr_wf _ _ _ F) A) as G. pose proof (fresh_call _ r h h' _ _ s F A G) as F2. rewrite E in G.
  destruct G as (_ & _ & C & O). destruct (h_scale n r h') as [h2 e]. cbn [fst snd] in *. subst e. now exists h2.
Qed.

Section Run.
Context (pf : string -> res Qc) (e0 : Qc) (files : fsys) (base : string) (location : nat -> option string) (orig : nat -> option Qc)
  (class : nat -> option syst) (dimension : nat -> option string) (ft : fit) (h0 : heap) (V : Qc -> Prop) (d : spectra).
Notation ps := (ft_pars ft).
Notation G := (global_pars ft).
Notation pm := (pre_made_spectrum pf e0 files base location orig class dimension ft h0).
Hypothesis PR : prepared ft h0.
Hypothesis DP : distinct_printing ft V.
Hypothesis AD : abs h0 (ft_data ft) = Some d.
Hypothesis WD : wf_spectra d.
Hypothesis GN : G <> [].
Hypothesis FF : files_fit pf e0 files base location orig class dimension ft h0 V.

Definition entry : Type := nat * list nat * spectra.
Definition e_ref (x : entry) : nat := fst (fst x).
Definition e_own (x : entry) : list nat := snd (fst x).
Definition e_base (x : entry) : spectra := snd x.
Definition conv (p : part) (args : list Qc) : res spectra := do s <- pm args p; on_axes_of d s.

Record inv (L : list entry) (st : fstate) : Prop := Inv {
  i_wf : wf_heap (fs_heap st);
  i_cur : length (fs_cur st) = length ps;
  i_frame : frame (fun _ => False) h0 (fs_heap st);
  i_nodup : NoDup (map e_ref L);
  i_apart : forall r, In r (map e_ref L) -> length (h_objs h0) <= r;
  i_live : forall x, In x L -> fit_ready d (e_base x) /\ exists c, abs (fs_heap st) (e_ref x) = Some c /\ orbit ps (e_own x) (e_base x) c;
  i_cache : forall name dd key r own, dget name (fs_cache st) = Some dd -> dget key dd = Some (r, own) ->
      exists p args B, In p (all_parts ft) /\ name_of h0 p = Some name /\ key = cur_val ft (map Some args) G /\ good_args ft V args /\
        own = pt_own p /\ conv p args = Ok B /\ In (r, own, B) L }.

Lemma SE : all_see ps. Proof. intros p I. now apply (pr_sees ft h0 PR). Qed.
Lemma inv_step L st st' (X : nat -> Prop) : inv L st -> fs_cache st' = fs_cache st -> length (fs_cur st') = length (fs_cur st) -> wf_heap (fs_heap st') ->
  frame X (fs_heap st) (fs_heap st') ->
  (forall x, In x L -> ~ X (e_ref x) \/ exists c, abs (fs_heap st') (e_ref x) = Some c /\ orbit ps (e_own x) (e_base x) c) ->
  (forall r, X r -> length (h_objs h0) <= r) -> inv L st'.
Proof.
  intros [I1 I2 I3 I4 I5 I6 I8] Ca Cu W F K S. constructor; auto; try congruence.
  - destruct I3 as [a b c f g], F as [a' b' c' f' g']. constructor; auto; [|lia]. intros r o N H. apply f'; [|now apply f].
    intro K'. apply S in K'. apply nth_some_lt in H. lia.
  - intros x I. destruct (I6 x I) as (R & c & A & O). split; [exact R|].
    destruct (K x I) as [D|D]; [|exact D]. exists c. split; [|exact O]. now apply (abs_frame X (fs_heap st)).
  - intros name dd key r own. rewrite Ca. apply I8.
Qed.
Lemma entry_unique L (x y : entry) : NoDup (map e_ref L) -> In x L -> In y L -> e_ref x = e_ref y -> x = y.
Proof.
  induction L as [|z L IH]; cbn; intros N I J E; [destruct I|]. inversion N as [|a b Na Nb]; subst.
  destruct I as [->|I], J as [->|J]; auto; exfalso; apply Na; [rewrite E|rewrite <- E]; now apply in_map.
Qed.
Lemma orbit_ready l B c : fit_ready d B -> orbit ps l B c -> fit_ready d c.
Proof.
  intros R O. assert (K : s_cfg c = s_cfg B /\ ashape (s_data c) = ashape (s_data B)).
  { destruct O as [O|(_ & n & s1 & _ & E & O)].
    - destruct O as [(_ & _ & K & _ & _ & _ & _ & S) _]. auto.
    - destruct O as [(_ & _ & K & _ & _ & _ & _ & S) _]. rewrite K, S. revert E. unfold scale. destruct (qdiv _ _); [|discriminate]. intro E. injection E as <-. auto. }
  now apply (ready_same d B).
Qed.
Lemma original_there L st r s : inv L st -> abs h0 r = Some s -> abs (fs_heap st) r = Some s.
Proof. intros I A. exact (abs_frame _ _ _ _ _ (i_frame _ _ I) (fun K => K) A). Qed.
Lemma data_there L st : inv L st -> abs (fs_heap st) (ft_data ft) = Some d.
Proof. intro I. now apply (original_there L). Qed.
Lemma entry_old L st r : inv L st -> In r (map e_ref L) -> r < length (h_objs (fs_heap st)).
Proof. intros I Ir. apply in_map_iff in Ir as (x & <- & Ix). destruct (i_live _ _ I _ Ix) as (_ & z & Az & _). now apply abs_lt in Az. Qed.

(** One use of a live spectrum: its own parameters, the axes of the data. *)
Definition use (r : nat) (l : list nat) : M nat := let! r' := apply_all ft l r in let! _ := match_data ft r' in mret r'.
Lemma match_live L st r own B : inv L st -> In (r, own, B) L -> forall c, abs (fs_heap st) r = Some c ->
  exists st', match_data ft r st = (st', Ok tt) /\ inv L st' /\ fs_cur st' = fs_cur st /\ exists s', abs (fs_heap st') r = Some s' /\ same_spectra s' c.
Proof.
  intros I J c A. destruct (i_live _ _ I _ J) as (R & c' & A' & O). assert (c' = c) as -> by (cbn in A'; congruence). clear A'.
  pose proof (i_apart _ _ I r (in_map e_ref _ _ J)) as Ge. pose proof (abs_lt _ _ _ AD) as Ld.
  destruct (match_data_ran ft r st d c (i_wf _ _ I) ltac:(lia) (data_there _ _ I) A WD (orbit_ready _ _ _ R O)) as (st' & E & Ca & Cu & W & F & s' & As & Ss).
  exists st'. split; [exact E|]. split; [|split; [exact Cu|now exists s']].
  apply (inv_step L st st' (eq r) I Ca); [now rewrite Cu|exact W|exact F| |].
  - intros x Ix. destruct (Nat.eq_dec r (e_ref x)) as [Ex|Nx]; [right|left; exact Nx].
    assert (x = (r, own, B)) as -> by (apply (entry_unique L); [exact (i_nodup _ _ I)|exact Ix|exact J|now symmetry]).
    cbn. exists s'. split; [exact As|]. now apply FitRun.orbit_same with c.
  - intros q <-. exact Ge.
Qed.
Lemma match_new L st r s : inv L st -> ~ In r (map e_ref L) -> length (h_objs h0) <= r -> abs (fs_heap st) r = Some s -> fit_ready d s ->
  exists st', match_data ft r st = (st', Ok tt) /\ inv L st' /\ fs_cur st' = fs_cur st /\ exists s', abs (fs_heap st') r = Some s' /\ same_spectra s' s.
Proof.
  intros I N Ge A R. pose proof (abs_lt _ _ _ AD) as Ld.
  destruct (match_data_ran ft r st d s (i_wf _ _ I) ltac:(lia) (data_there _ _ I) A WD R) as (st' & E & Ca & Cu & W & F & s' & As & Ss).
  exists st'. split; [exact E|]. split; [|split; [exact Cu|now exists s']].
  apply (inv_step L st st' (eq r) I Ca); [now rewrite Cu|exact W|exact F| |].
  - intros x Ix. left. intros ->. now apply N, in_map.
  - intros q <-. exact Ge.
Qed.
Lemma use_live L st r own B args : inv L st -> In (r, own, B) L -> fs_cur st = map Some args -> good_args ft V args ->
  inv L (fst (use r own st)) /\ fs_cur (fst (use r own st)) = fs_cur st /\
  match snd (use r own st), apply_values ps args own B with
  | Ok r', Ok s => exists s', abs (fs_heap (fst (use r own st))) r' = Some s' /\ same_spectra s' s
  | Err e, Err f => e = f
  | _, _ => False
  end.
Proof.
  intros I J C (_ & _ & NZ). destruct (i_live _ _ I _ J) as (R & c & A & O). cbn in A, O, R.
  destruct (apply_all_ran ft args own SE NZ r st c B (i_wf _ _ I) C A O) as (Ra & c1 & A1 & O1).
  assert (I1 : inv L (fst (apply_all ft own r st))).
  { destruct Ra as (Ca & Cu & W & F & _). apply (inv_step L st _ (fun x => r = x /\ first_rate ps own) I Ca); [now rewrite Cu|exact W|exact F| |].
    - intros x Ix. destruct (Nat.eq_dec r (e_ref x)) as [Ex|Nx]; [right|left; intros [K _]; congruence].
      assert (x = (r, own, B)) as -> by (apply (entry_unique L); [exact (i_nodup _ _ I)|exact Ix|exact J|now symmetry]).
      exists c1. auto.
    - intros q [<- _]. exact (i_apart _ _ I r (in_map e_ref _ _ J)). }
  unfold use, mbind, mret. destruct (apply_all ft own r st) as [st1 [r1|e1]] eqn:EA; cbn [fst snd] in *.
  2:{ destruct Ra as (Ca & Cu & W & F & K). cbn [fst snd] in *. split; [exact I1|]. split; [exact Cu|exact K]. }
  destruct Ra as (Ca & Cu & W & F & K). cbn [fst snd] in *.
  destruct (apply_values ps args own B) as [s1|] eqn:Ev; [|contradiction]. destruct K as (K & s' & As & Ss).
  assert (M : exists st', match_data ft r1 st1 = (st', Ok tt) /\ inv L st' /\ fs_cur st' = fs_cur st1 /\ exists s2, abs (fs_heap st') r1 = Some s2 /\ same_spectra s2 s').
  { destruct K as [->|K]; [exact (match_live L st1 r own B I1 J s' As)|].
    pose proof (f_len _ _ _ (i_frame _ _ I)). apply (match_new L st1 r1 s' I1); [|lia|exact As|].
    - intro Ir. apply (entry_old L st r1 I) in Ir. lia.
    - apply apply_values_kept in Ev as [E1 E2]. destruct Ss as [(_ & _ & E3 & _ & _ & _ & _ & E4) _].
      apply (ready_same d B); [exact R|congruence|congruence]. }
  destruct M as (st2 & E2 & I2 & C2 & s2 & A2 & S2). rewrite E2. cbn [fst snd]. split; [exact I2|]. split; [congruence|].
  exists s2. split; [exact A2|]. eapply same_trans; eassumption.
Qed.

(** ** The dictionary of loaded spectra *)
Lemma inv_add L st name dd key r p args B c : inv L st -> length (h_objs h0) <= r -> ~ In r (map e_ref L) ->
  abs (fs_heap st) r = Some c -> orbit ps (pt_own p) B c -> fit_ready d B ->
  (forall dd', dget name (fs_cache st) = Some dd' -> dd' = dd) -> (dget name (fs_cache st) = None -> dd = []) ->
  In p (all_parts ft) -> name_of h0 p = Some name -> key = cur_val ft (map Some args) G -> good_args ft V args -> conv p args = Ok B ->
  inv ((r, pt_own p, B) :: L) (fs_with_cache st (dset name (dset key (r, pt_own p) dd) (fs_cache st))).
Proof.
  intros [I1 I2 I3 I4 I5 I6 I8] Ge Nr A S R D1 D2 Ip Nm Ke Ga Co. constructor; cbn [fs_with_cache fs_heap fs_cache fs_cur map e_ref e_own e_base fst snd]; auto.
  - constructor; [exact Nr|exact I4].
  - intros q [<-|K]; [exact Ge|now apply I5].
  - intros x [<-|K]; [|now apply I6]. cbn. split; [exact R|]. now exists c.
  - intros n1 dd1 k1 r1 own1 H1 H2. destruct (String.eqb_spec n1 name) as [->|Nn].
    + rewrite dget_dset_same in H1. injection H1 as <-. destruct (String.eqb_spec k1 key) as [->|Nk].
      * rewrite dget_dset_same in H2. injection H2 as <- <-. exists p, args, B. repeat (split; [assumption || reflexivity|]). now left.
      * rewrite dget_dset_other in H2 by congruence.
        destruct (dget name (fs_cache st)) as [dd'|] eqn:Dn; [|rewrite (D2 eq_refl) in H2; discriminate].
        assert (dd' = dd) as -> by now apply D1. destruct (I8 _ _ _ _ _ Dn H2) as (p' & args' & B' & K2 & K3 & K4 & K5 & K6 & K7 & K8).
        exists p', args', B'. repeat (split; [assumption|]). now right.
    + rewrite dget_dset_other in H1 by congruence. destruct (I8 _ _ _ _ _ H1 H2) as (p' & args' & B' & K2 & K3 & K4 & K5 & K6 & K7 & K8).
      exists p', args', B'. repeat (split; [assumption|]). now right.
Qed.
Lemma part_names p p' n : In p (all_parts ft) -> In p' (all_parts ft) -> name_of h0 p = Some n -> name_of h0 p' = Some n -> p = p'.
Proof. intros I I' N N'. destruct (pr_names _ _ PR GN) as [ND _]. apply (NoDup_map_inj (name_of h0) (all_parts ft)); [exact ND|exact I|exact I'|congruence]. Qed.
Lemma global_in i : In i G -> exists q, nth_error ps i = Some q.
Proof.
  unfold global_pars. intro I. enough (K : forall l k, In i (global_from k l) -> k <= i /\ exists q, nth_error l (i - k) = Some q).
  { destruct (K _ _ I) as (_ & q & Q). rewrite Nat.sub_0_r in Q. now exists q. }
  clear I. induction l as [|q l IH]; intros k I; [destruct I|]. cbn [global_from] in I.
  assert (J : i = k \/ In i (global_from (S k) l)) by (destruct (q_global q); [destruct I as [<-|I]; auto|auto]).
  destruct J as [->|J]; [split; [lia|]; rewrite Nat.sub_diag; now exists q|]. destruct (IH _ J) as (Le & q' & Q). split; [lia|]. exists q'.
  replace (i - k) with (S (i - S k)) by lia. exact Q.
Qed.
Lemma conv_args p args args' : good_args ft V args -> good_args ft V args' -> cur_val ft (map Some args) G = cur_val ft (map Some args') G -> conv p args = conv p args'.
Proof.
  intros (L1 & V1 & _) (L2 & V2 & _) K. unfold conv, pre_made_spectrum.
  assert (E : forall i q, In i G -> nth_error ps i = Some q -> nth_error args i = nth_error args' i) by (apply (key_inj ft V); [exact DP|exact V1|exact V2|congruence|exact K]).
  assert (E2 : at_values class dimension ft args = at_values class dimension ft args').
  { unfold at_values. apply map_ext_in. intros i I. destruct (global_in i I) as (q & Q). now rewrite (E i q I Q). }
  now rewrite E2.
Qed.
Lemma inv_touch L st name : inv L st ->
  inv L (fs_with_cache st (dset name (match dget name (fs_cache st) with Some x => x | None => [] end) (fs_cache st))).
Proof.
  intros [I1 I2 I3 I4 I5 I6 I8]. constructor; auto. cbn [fs_with_cache fs_cache]. intros n1 dd1 k1 r1 own1 H1 H2.
  destruct (String.eqb_spec n1 name) as [->|Nn]; [|rewrite dget_dset_other in H1 by congruence; eapply I8; eassumption].
  rewrite dget_dset_same in H1. destruct (dget name (fs_cache st)) as [x|] eqn:D; injection H1 as <-; [eapply I8; eassumption|discriminate].
Qed.
Notation lpm p := (load_pre_made pf e0 files base location orig class dimension ft G (pt_ref p)).
Lemma with_orig_eq o q : with_orig o q = match o with Some n => if qeq n 0 then q else with_decays q n | None => q end.
Proof. destruct o as [n|]; [|reflexivity]. unfold with_orig. cbn [given]. now destruct (qeq n 0). Qed.
Lemma gpars_eq args : map (gpar_at class dimension ft (map Some args)) G = at_values class dimension ft args.
Proof. unfold at_values. apply map_ext. intro i. unfold gpar_at. rewrite nth_error_map. now destruct (nth_error args i). Qed.
Lemma load_ok st p args s : wf_heap (fs_heap st) -> fs_cur st = map Some args -> abs (fs_heap st) (pt_ref p) = Some s -> abs h0 (pt_ref p) = Some s ->
  fs_cache (fst (lpm p st)) = fs_cache st /\ fs_cur (fst (lpm p st)) = fs_cur st /\ wf_heap (fs_heap (fst (lpm p st))) /\
  frame (fun _ => False) (fs_heap st) (fs_heap (fst (lpm p st))) /\
  match snd (lpm p st), pm args p with
  | Ok r, Ok t => fresh (fs_heap st) (fs_heap (fst (lpm p st))) r /\ exists c, abs (fs_heap (fst (lpm p st))) r = Some c /\ same_spectra c t
  | Err e, Err f => e = f
  | _, _ => False
  end.
Proof.
  intros W C A A0. unfold load_pre_made, pre_made_spectrum, mbind, look, mlift, mret, shown. rewrite A, A0, C, gpars_eq. cbn [rbind].
  destruct (pre_made_path base (location (pt_ref p)) (at_values class dimension ft args)) as [f|er]; cbn [rbind fst snd]; [|refine (conj eq_refl (conj _ (conj W (conj (frame_refl _ _) eq_refl)))); auto].
  destruct (load pf e0 (files f)) as [q|er]; cbn [rbind fst snd]; [|refine (conj eq_refl (conj _ (conj W (conj (frame_refl _ _) eq_refl)))); auto].
  rewrite <- with_orig_eq. set (w := with_orig (orig (pt_ref p)) (st_spec q)). destruct (loaded_ok w (fs_heap st) W) as (F & c & Ac & Sc).
  unfold on_heap. cbn [fs_with_heap fs_heap].
  pose proof (scale_call (s_decays s) _ _ c (fr_wf _ _ _ F) Ac) as Gc. pose proof (fresh_call _ _ _ _ _ _ _ F Ac Gc) as F2. destruct Gc as (_ & W2 & (c2 & A2 & S2) & O2).
  pose proof (scale_ext (s_decays s) c w Sc) as [X1 X2].
  destruct (h_scale (s_decays s) (length (h_objs (fs_heap st))) (h_loaded w (fs_heap st))) as [h2 e2]. cbn [fst snd] in *. subst e2.
  destruct (scale (s_decays s) c) as [c' oc]. destruct (scale (s_decays s) w) as [w' ow]. cbn [fst snd] in *. subst ow.
  destruct oc as [er|]; cbn [fst snd fs_with_heap fs_heap fs_cache fs_cur done].
  - refine (conj eq_refl (conj _ (conj W2 (conj (fr_frame _ _ _ F2) eq_refl)))). auto.
  - refine (conj eq_refl (conj _ (conj W2 (conj (fr_frame _ _ _ F2) (conj F2 _))))); [auto|]. exists c2. split; [exact A2|]. eapply same_trans; eassumption.
Qed.
Lemma part_there p : In p (all_parts ft) -> exists s n, abs h0 (pt_ref p) = Some s /\ snd (get_background_name s) = Ok n /\ name_of h0 p = Some n.
Proof.
  intros J. destruct (pr_names _ _ PR GN) as [_ N]. unfold name_of. destruct (abs h0 (pt_ref p)) as [s|] eqn:A.
  - exists s. destruct (snd (get_background_name s)) as [n|] eqn:E; [now exists n|]. exfalso. apply N. apply in_map_iff. exists p. split; [|exact J]. unfold name_of. now rewrite A, E.
  - exfalso. apply N. apply in_map_iff. exists p. split; [|exact J]. unfold name_of. now rewrite A.
Qed.
(** A spectrum just loaded: in the dictionary, but not yet on the axes of the data. *)
Definition pending (L : list entry) (p : part) (args : list Qc) (st : fstate) (r : nat) : Prop :=
  exists st1 name dd, inv L st1 /\ fresh (fs_heap st1) (fs_heap st) r /\
    fs_cache st = dset name (dset (cur_val ft (map Some args) G) (r, pt_own p) dd) (fs_cache st1) /\ fs_cur st = fs_cur st1 /\
    dget name (fs_cache st1) = Some dd /\ name_of h0 p = Some name.
Lemma settle L p args st r B c : pending L p args st r -> In p (all_parts ft) -> good_args ft V args -> conv p args = Ok B -> fit_ready d B ->
  abs (fs_heap st) r = Some c -> orbit ps (pt_own p) B c -> inv ((r, pt_own p, B) :: L) st.
Proof.
  intros (st1 & name & dd & I & F & Ca & Cu & Dn & Nm) Ip Ga Co R A O. pose proof (f_len _ _ _ (i_frame _ _ I)) as Len. pose proof (fr_new _ _ _ F) as Ge.
  assert (I' : inv L (FState (fs_heap st) (fs_cache st1) (fs_cur st))).
  { apply (inv_step L st1 _ (fun _ => False) I); cbn; [reflexivity|now rewrite Cu|exact (fr_wf _ _ _ F)|exact (fr_frame _ _ _ F)|intros; now left|intros q []]. }
  pose proof (inv_add L _ name dd (cur_val ft (map Some args) G) r p args B c I') as K. cbn [fs_heap fs_cache fs_cur fs_with_cache] in K. rewrite <- Ca in K.
  destruct st as [h ca cu]. cbn [fs_heap fs_cache fs_cur] in *. apply K; auto; [lia| |congruence|congruence].
  intro Ir. apply (entry_old L st1 r I) in Ir. lia.
Qed.
Lemma through_ok L st p args : inv L st -> In p (all_parts ft) -> fs_cur st = map Some args -> good_args ft V args ->
  fs_cur (fst (through_cache ft p (lpm p) st)) = fs_cur st /\
  match snd (through_cache ft p (lpm p) st), pm args p with
  | Ok (r, own), Ok t => own = pt_own p /\
      ((exists B, conv p args = Ok B /\ In (r, own, B) L /\ inv L (fst (through_cache ft p (lpm p) st))) \/
       (pending L p args (fst (through_cache ft p (lpm p) st)) r /\ exists c, abs (fs_heap (fst (through_cache ft p (lpm p) st))) r = Some c /\ same_spectra c t))
  | Err e, Err f => e = f /\ inv L (fst (through_cache ft p (lpm p) st))
  | _, _ => False
  end.
Proof.
  intros I Ip C Ga. destruct (part_there p Ip) as (s & name & A0 & E & Nm).
  pose proof (original_there L st _ _ I A0) as A. unfold through_cache, mbind, look, mlift. rewrite A, E.
  set (dd := match dget name (fs_cache st) with Some x => x | None => [] end).
  set (key := cur_val ft (fs_cur st) G). set (st1 := fs_with_cache st (dset name dd (fs_cache st))).
  assert (I1 : inv L st1) by exact (inv_touch L st name I). cbn zeta.
  destruct (dget key dd) as [[r own]|] eqn:Dk.
  - split; [reflexivity|]. cbn [fst snd].
    destruct (i_cache _ _ I1 name dd key r own) as (p' & args' & B & K2 & K3 & K4 & K5 & K6 & K7 & K8); [cbn; apply dget_dset_same|exact Dk|].
    pose proof (part_names p p' name Ip K2 Nm K3) as <-.
    assert (Co : conv p args = Ok B). { rewrite (conv_args p args args' Ga K5); [exact K7|]. unfold key in K4. now rewrite C in K4. }
    pose proof Co as Co'. unfold conv in Co'. destruct (pm args p) as [t|]; [|discriminate]. split; [exact K6|]. left. exists B. auto.
  - destruct (load_ok st1 p args s (i_wf _ _ I1) C A A0) as (Z1 & Z2 & Z3 & Z4 & Z5).
    destruct (lpm p st1) as [st2 [r|e]] eqn:EL; cbn [fst snd] in *; destruct (pm args p) as [t|]; try contradiction.
    + split; [exact Z2|]. destruct Z5 as (F & Z5). split; [reflexivity|]. right. split; [|exact Z5]. exists st1, name, dd. split; [exact I1|]. split; [exact F|].
      split; [|split; [exact Z2|split; [apply dget_dset_same|exact Nm]]]. unfold fs_with_cache at 1. cbn [fs_cache]. rewrite Z1. unfold key. now rewrite C.
    + split; [exact Z2|]. split; [exact Z5|]. apply (inv_step L st1 _ (fun _ => False) I1 Z1); [now rewrite Z2|exact Z3|exact Z4|intros; now left|intros q []].
Qed.
(** Calls on a spectrum just loaded. *)
Lemma pending_call L p args st r wc x y s : pending L p args st r -> abs (fs_heap st) r = Some s -> good_call wc false false r (fs_heap st) x y ->
  pending L p args (fs_with_heap st (fst x)) r /\ exists c, abs (fst x) r = Some c /\ same_spectra c (fst y).
Proof.
  intros (st1 & name & dd & I & F & K) A Gc. split; [|now destruct Gc as (_ & _ & X & _)]. exists st1, name, dd. split; [exact I|]. split; [|exact K].
  exact (fresh_call wc r _ _ x y s F A Gc).
Qed.
Lemma pending_data L p args st r : pending L p args st r -> abs (fs_heap st) (ft_data ft) = Some d.
Proof. intros (st1 & name & dd & I & F & K). exact (abs_frame _ _ _ _ _ (fr_frame _ _ _ F) (fun K => K) (data_there _ _ I)). Qed.
Lemma pending_wf L p args st r : pending L p args st r -> wf_heap (fs_heap st).
Proof. intros (st1 & name & dd & I & F & K). exact (fr_wf _ _ _ F). Qed.
Lemma on_heap_ok f st h : f (fs_heap st) = (h, None) -> on_heap f st = (fs_with_heap st h, Ok tt).
Proof. intro E. unfold on_heap. now rewrite E. Qed.
Lemma call_ok (x : heap * out) (y : spectra * out) s : snd x = snd y -> done y = Ok s -> x = (fst x, None) /\ fst y = s.
Proof. destruct x as [h o]. intros E D. apply done_ok in D. subst y. cbn in *. now subst o. Qed.
Lemma pending_match L p args st r c m : pending L p args st r -> abs (fs_heap st) r = Some c -> on_axes_of d c = Ok m ->
  exists st', match_data ft r st = (st', Ok tt) /\ pending L p args st' r /\ fs_cur st' = fs_cur st /\ exists c', abs (fs_heap st') r = Some c' /\ same_spectra c' m.
Proof.
  intros P A M. unfold on_axes_of in M. destruct (data_keywords (s_cfg d) (s_cfg c) []) as [kw|] eqn:KW; [|discriminate]. cbn [rbind] in M.
  destruct (done (shrink kw c)) as [c1|] eqn:D1; [|discriminate]. cbn [rbind] in M.
  pose proof (shrink_call kw r _ c (pending_wf _ _ _ _ _ P) A) as G1. destruct (pending_call _ _ _ _ _ _ _ _ _ P A G1) as (P1 & a1 & A1 & S1).
  assert (O1 : snd (h_shrink kw r (fs_heap st)) = snd (shrink kw c)) by (destruct G1 as (_ & _ & _ & O); exact O). clear G1.
  destruct (call_ok _ _ _ O1 D1) as [E1 F1]. rewrite F1 in S1. set (h1 := fst (h_shrink kw r (fs_heap st))) in *. clearbody h1.
  set (bins := map Z.of_nat (ashape (s_data d))) in *.
  pose proof (done_ext _ _ (rebin_ext bins a1 c1 S1)) as X. rewrite M in X. destruct (done (rebin bins a1)) as [m1|] eqn:D2; cbn in X; [|contradiction].
  pose proof (rebin_call bins r _ a1 (pending_wf _ _ _ _ _ P1) A1) as G2. destruct (pending_call _ _ _ _ _ _ _ _ _ P1 A1 G2) as (P2 & a2 & A2 & S2).
  assert (O2 : snd (h_rebin bins r (fs_heap (fs_with_heap st h1))) = snd (rebin bins a1)) by (destruct G2 as (_ & _ & _ & O); exact O). clear G2.
  destruct (call_ok _ _ _ O2 D2) as [E2 F2]. rewrite F2 in S2. set (h2 := fst (h_rebin bins r (fs_heap (fs_with_heap st h1)))) in *. clearbody h2.
  exists (fs_with_heap (fs_with_heap st h1) h2). split.
  - unfold match_data, shrink_to_data, mbind, look, mlift. rewrite (pending_data _ _ _ _ _ P), A, KW, (on_heap_ok _ _ _ E1), (pending_data _ _ _ _ _ P1).
    fold bins. now rewrite (on_heap_ok _ _ _ E2).
  - split; [exact P2|]. split; [reflexivity|]. exists a2. split; [exact A2|]. eapply same_trans; eassumption.
Qed.
Lemma pending_rates L p args r : good_args ft V args -> forall l st c, rates_only ps l -> pending L p args st r -> fs_cur st = map Some args ->
  abs (fs_heap st) r = Some c -> s_decays c <> 0%Qc ->
  exists st' t, apply_all ft l r st = (st', Ok r) /\ pending L p args st' r /\ fs_cur st' = fs_cur st /\ apply_values ps args l c = Ok t /\
    exists c', abs (fs_heap st') r = Some c' /\ same_spectra c' t.
Proof.
  intros (Len & _ & NZ). induction l as [|i l IH]; intros st c RO P C A D.
  - exists st, c. repeat (split; [assumption || reflexivity|]). exists c. split; [exact A|apply same_refl].
  - destruct (RO i (or_introl eq_refl)) as (q & Q & K). pose proof (nth_some_lt _ _ _ Q) as Li. rewrite <- Len in Li.
    destruct (nth_error args i) as [v|] eqn:Va; [|apply nth_error_None in Va; lia].
    assert (Vc : nth_error (fs_cur st) i = Some (Some v)) by (rewrite C, nth_error_map, Va; reflexivity).
    destruct (scale_some v c D) as (c1 & E1). pose proof (scale_call v r _ c (pending_wf _ _ _ _ _ P) A) as G1. destruct (pending_call _ _ _ _ _ _ _ _ _ P A G1) as (P1 & a1 & A1 & S1).
    assert (O1 : snd (h_scale v r (fs_heap st)) = snd (scale v c)) by (destruct G1 as (_ & _ & _ & O); exact O). clear G1.
    assert (D1 : done (scale v c) = Ok c1) by (rewrite E1; reflexivity).
    destruct (call_ok _ _ _ O1 D1) as [E2 F2]. rewrite F2 in S1. set (h1 := fst (h_scale v r (fs_heap st))) in *. clearbody h1.
    assert (Da : s_decays a1 <> 0%Qc). { destruct S1 as [(_ & _ & _ & S1 & _) _]. rewrite S1, (scale_decays _ _ _ E1). exact (NZ i q v Q Va K). }
    destruct (IH (fs_with_heap st h1) a1 (fun j J => RO j (or_intror J)) P1 C A1 Da) as (st' & t & X1 & X2 & X3 & X4 & c' & X5 & X6).
    pose proof (apply_values_ext ps args l SE a1 c1 S1) as Y. rewrite X4 in Y. destruct (apply_values ps args l c1) as [t'|] eqn:T; cbn in Y; [|contradiction].
    exists st', t'. split; [|split; [exact X2|split; [exact X3|split]]].
    + cbn [apply_all]. unfold mbind, apply_to. rewrite Q, Vc, K. unfold mbind. rewrite (on_heap_ok _ _ _ E2). exact X1.
    + cbn [apply_values]. rewrite Q, Va, K. cbn [apply_value]. rewrite E1. exact T.
    + exists c'. split; [exact X5|]. eapply same_trans; eassumption.
Qed.
Lemma rates_orbit args : good_args ft V args -> forall l s t, rates_only ps l -> apply_values ps args l s = Ok t -> orbit ps l s t.
Proof.
  intros (_ & _ & NZ). induction l as [|i l IH]; intros s t RO H; [injection H as <-; left; apply same_refl|].
  destruct (RO i (or_introl eq_refl)) as (q & Q & K). cbn [apply_values] in H. rewrite Q in H. destruct (nth_error args i) as [v|] eqn:Va; [|discriminate]. rewrite K in H.
  destruct (apply_value KRate v s) as [s1|] eqn:E; [|discriminate]. cbn [rbind] in H.
  apply (orbit_scale ps i l s s1 v t q Q K (NZ i q v Q Va K) E). apply IH; [|exact H]. intros j J. apply RO. now right.
Qed.
Lemma rates_axes args : good_args ft V args -> forall l s t m, rates_only ps l -> apply_values ps args l s = Ok t -> on_axes_of d s = Ok m ->
  exists m' u, on_axes_of d t = Ok m' /\ apply_values ps args l m = Ok u /\ same_spectra m' u.
Proof.
  intros Ga. induction l as [|i l IH]; intros s t m RO H M; [injection H as <-; exists m, m; repeat split; auto|].
  destruct (RO i (or_introl eq_refl)) as (q & Q & K). cbn [apply_values] in H |- *. rewrite Q in *. destruct (nth_error args i) as [v|] eqn:Va; [|discriminate]. rewrite K in *.
  cbn [apply_value] in *. destruct (scale v s) as [s1 [er|]] eqn:E; [discriminate|]. cbn [rbind] in H.
  destruct (on_axes_scale d v s s1 m E M) as (m1 & M1 & m2 & E2 & S2). rewrite E2. cbn [rbind].
  destruct (IH s1 t m1 (fun j J => RO j (or_intror J)) H M1) as (m' & u & X1 & X2 & X3). pose proof (apply_values_ext ps args l SE m1 m2 S2) as Y. rewrite X2 in Y.
  destruct (apply_values ps args l m2) as [u'|]; cbn in Y; [|contradiction]. exists m', u'. split; [exact X1|]. split; [reflexivity|]. eapply same_trans; eassumption.
Qed.
Lemma pm_decays p args s t : abs h0 (pt_ref p) = Some s -> pm args p = Ok t -> s_decays t = s_decays s.
Proof.
  intros A H. unfold pre_made_spectrum, shown in H. rewrite A in H. cbn [rbind] in H. destruct (pre_made_path _ _ _) as [f|]; [|discriminate]. cbn [rbind] in H.
  destruct (load _ _ _) as [q|]; [|discriminate]. cbn [rbind] in H. apply done_ok in H. now apply scale_decays in H.
Qed.
Lemma conv_of p args t m : pm args p = Ok t -> on_axes_of d t = Ok m -> conv p args = Ok m.
Proof. intros P M. unfold conv. now rewrite P. Qed.

(** ** The sum *)
Notation opt_eq := FitRun.opt_eq.
Definition good {A} (R : A -> A -> Prop) (st : fstate) (x : fstate * res A) (y : res A) : Prop :=
  exists L', inv L' (fst x) /\ fs_cur (fst x) = fs_cur st /\ res_eq R (snd x) y.
Definition show (p : part) (own : list nat) (r : nat) (acc : option ndarray) : M ndarray :=
  let! r := apply_all ft own r in let! _ := match_data ft r in let! a := projection r (pt_pars p) in mlift (add_to acc a).
Lemma show_live L st p args r own B acc acc' : inv L st -> In (r, own, B) L -> fs_cur st = map Some args -> good_args ft V args -> opt_eq acc acc' ->
  good arr_eq st (show p own r acc st) (rbind (rbind (apply_values ps args own B) (nd_project (pt_pars p))) (add_to acc')).
Proof.
  intros I J C Ga Eo. destruct (use_live L st r own B args I J C Ga) as (I1 & C1 & V1). unfold good. exists L.
  revert I1 C1 V1. unfold show, use, mbind, mret, projection, look, mlift.
  destruct (apply_all ft own r st) as [st1 [r1|e1]]; cbn [fst snd]; intros I1 C1 V1.
  2:{ split; [exact I1|]. split; [exact C1|]. destruct (apply_values ps args own B); cbn; [contradiction|exact V1]. }
  destruct (match_data ft r1 st1) as [st2 [[]|e2]]; cbn [fst snd] in *.
  2:{ split; [exact I1|]. split; [exact C1|]. destruct (apply_values ps args own B); cbn; [contradiction|exact V1]. }
  destruct (apply_values ps args own B) as [s|]; [|contradiction]. destruct V1 as (s' & As & Ss). unfold mbind. rewrite As. cbn [rbind].
  pose proof (nd_project_ext (pt_pars p) s' s Ss) as E. destruct (nd_project (pt_pars p) s') as [a|], (nd_project (pt_pars p) s) as [a'|]; cbn in E; try contradiction; cbn [fst snd rbind].
  - split; [exact I1|]. split; [exact C1|]. now apply FitRun.add_to_ext.
  - split; [exact I1|]. split; [exact C1|]. exact E.
Qed.
Lemma show_pending L st p args r t m c acc acc' : pending L p args st r -> In p (all_parts ft) -> fs_cur st = map Some args -> good_args ft V args -> opt_eq acc acc' ->
  rates_only ps (pt_own p) -> pm args p = Ok t -> s_decays t <> 0%Qc -> on_axes_of d t = Ok m -> fit_ready d m -> abs (fs_heap st) r = Some c -> same_spectra c t ->
  good arr_eq st (show p (pt_own p) r acc st) (rbind (rbind (apply_values ps args (pt_own p) m) (nd_project (pt_pars p))) (add_to acc')).
Proof.
  intros P Ip C Ga Eo RO T Dt M R A S. assert (Dc : s_decays c <> 0%Qc). { destruct S as [(_ & _ & _ & S & _) _]. congruence. }
  destruct (pending_rates L p args r Ga (pt_own p) st c RO P C A Dc) as (st1 & c1 & E1 & P1 & C1 & V1 & a1 & A1 & S1).
  pose proof (apply_values_ext ps args (pt_own p) SE c t S) as Y. rewrite V1 in Y. destruct (apply_values ps args (pt_own p) t) as [t1|] eqn:V2; cbn in Y; [|contradiction].
  destruct (rates_axes args Ga (pt_own p) t t1 m RO V2 M) as (m' & u & M' & U & Su).
  pose proof (on_axes_ext d a1 t1 (same_trans _ _ _ S1 Y)) as X. rewrite M' in X. destruct (on_axes_of d a1) as [m2|] eqn:M2; cbn in X; [|contradiction].
  destruct (pending_match L p args st1 r a1 m2 P1 A1 M2) as (st2 & E2 & P2 & C2 & a2 & A2 & S2).
  assert (Sa : same_spectra a2 u) by (eapply same_trans; [exact S2|]; eapply same_trans; eassumption).
  assert (O : orbit ps (pt_own p) m a2). { apply FitRun.orbit_same with u; [|exact Sa]. now apply (rates_orbit args Ga). }
  pose proof (settle L p args st2 r m a2 P2 Ip Ga (conv_of p args t m T M) R A2 O) as I2.
  exists ((r, pt_own p, m) :: L). rewrite U. cbn [rbind]. unfold show, mbind, projection, look, mlift. rewrite E1. rewrite E2. unfold mbind. rewrite A2.
  pose proof (nd_project_ext (pt_pars p) a2 u Sa) as E. destruct (nd_project (pt_pars p) a2) as [a|], (nd_project (pt_pars p) u) as [a'|]; cbn in E; try contradiction; cbn [fst snd rbind].
  - split; [exact I2|]. split; [congruence|]. now apply FitRun.add_to_ext.
  - split; [exact I2|]. split; [congruence|]. exact E.
Qed.
Notation pmc := (pre_made_contribution pf e0 files base location orig class dimension ft h0 d).
Lemma floating_split args l p : pmc args l p = rbind (conv p args) (fun B => rbind (apply_values ps args l B) (nd_project (pt_pars p))).
Proof. unfold pre_made_contribution, conv. destruct (pm args p) as [s|]; [|reflexivity]. cbn [rbind]. destruct (on_axes_of d s); reflexivity. Qed.
(** Spectra with the axes of the data need no change. *)
Lemma settle_ready L p args st r t c : pending L p args st r -> In p (all_parts ft) -> good_args ft V args -> pm args p = Ok t -> fit_ready d t ->
  abs (fs_heap st) r = Some c -> same_spectra c t -> exists m, conv p args = Ok m /\ inv ((r, pt_own p, m) :: L) st.
Proof.
  intros P Ip Ga T R A S. destruct (ready_on_axes d t WD R) as (m & M & Sm). exists m. split; [exact (conv_of p args t m T M)|].
  apply (settle L p args st r m c P Ip Ga (conv_of p args t m T M)); [|exact A|left; eapply same_trans; [exact S|now apply same_sym]].
  apply (ready_same d t); [exact R|destruct Sm as [(_ & _ & K & _) _]; exact K|destruct Sm as [(_ & _ & _ & _ & _ & _ & _ & K) _]; exact K].
Qed.
Notation add_pm := (add_floating_pm pf e0 files base location orig class dimension ft).
Lemma add_floating_ok L st p args acc acc' : inv L st -> In p (ft_floating ft) -> fs_cur st = map Some args -> good_args ft V args -> opt_eq acc acc' ->
  good arr_eq st (add_pm p acc st) (rbind (pmc args (pt_own p) p) (add_to acc')).
Proof.
  intros I Ip C Ga Eo. rewrite floating_split. unfold add_floating_pm.
  assert (E : (match G with [] => mret (pt_ref p, pt_own p) | gs => through_cache ft p (load_pre_made pf e0 files base location orig class dimension ft gs (pt_ref p)) end) = through_cache ft p (lpm p)).
  { clear - GN. destruct G; [congruence|reflexivity]. } rewrite E. clear E.
  assert (Ia : In p (all_parts ft)) by (unfold all_parts; apply in_or_app; now left).
  destruct (through_ok L st p args I Ia C Ga) as (C1 & V1). unfold mbind at 1.
  destruct (through_cache ft p (lpm p) st) as [st1 [[r own]|e]]; cbn [fst snd] in *; destruct (pm args p) as [t|] eqn:T; try contradiction.
  - destruct V1 as (-> & V1). change (good arr_eq st (show p (pt_own p) r acc st1) (rbind (rbind (conv p args) (fun B => rbind (apply_values ps args (pt_own p) B) (nd_project (pt_pars p)))) (add_to acc'))).
    assert (X : good arr_eq st1 (show p (pt_own p) r acc st1) (rbind (rbind (conv p args) (fun B => rbind (apply_values ps args (pt_own p) B) (nd_project (pt_pars p)))) (add_to acc'))).
    2:{ destruct X as (L2 & I2 & C2 & V2). exists L2. split; [exact I2|]. split; [congruence|exact V2]. }
    destruct V1 as [(B & -> & J & I1)|(P & c & A & S)]; [exact (show_live L st1 p args r _ B acc acc' I1 J (eq_trans C1 C) Ga Eo)|].
    destruct (part_there p Ia) as (s & n & A0 & _). destruct (FF d p s args t AD Ia A0 Ga T) as (Ds & (m & M & R) & K).
    assert (Dt : s_decays t <> 0%Qc) by (rewrite (pm_decays p args s t A0 T); exact Ds).
    destruct K as [K|[K|K]].
    + destruct (settle_ready L p args st1 r t c P Ia Ga T K A S) as (m' & -> & I1). exact (show_live _ st1 p args r _ m' acc acc' I1 (or_introl eq_refl) (eq_trans C1 C) Ga Eo).
    + exfalso. apply (pr_signal_apart _ _ PR p K). now apply in_map.
    + rewrite (conv_of p args t m T M). exact (show_pending L st1 p args r t m c acc acc' P Ia (eq_trans C1 C) Ga Eo K T Dt M R A S).
  - destruct V1 as (-> & I1). unfold conv. rewrite T. exists L. split; [exact I1|]. split; [exact C1|reflexivity].
Qed.
Notation adds_pm := (add_floatings_pm pf e0 files base location orig class dimension ft).
Lemma add_floatings_ok args : good_args ft V args -> forall l L st acc acc', inv L st -> incl l (ft_floating ft) -> fs_cur st = map Some args -> opt_eq acc acc' ->
  good opt_eq st (adds_pm l acc st) (sum_parts acc' (map (fun p => pmc args (pt_own p) p) l)).
Proof.
  intro Ga. induction l as [|p l IH]; intros L st acc acc' I Il C Eo.
  - exists L. split; [exact I|]. split; [reflexivity|exact Eo].
  - cbn [map]. rewrite FitRun.sum_parts_cons. cbn [add_floatings_pm]. unfold mbind.
    destruct (add_floating_ok L st p args acc acc' I (Il p (or_introl eq_refl)) C Ga Eo) as (L1 & I1 & C1 & V1).
    destruct (add_pm p acc st) as [st1 [a|e]]; cbn [fst snd] in *; destruct (rbind (pmc args (pt_own p) p) (add_to acc')) as [b|]; cbn in V1; try contradiction.
    + cbn [rbind]. destruct (IH L1 st1 (Some a) (Some b) I1 (fun q H => Il q (or_intror H)) (eq_trans C1 C) V1) as (L2 & I2 & C2 & V2).
      exists L2. split; [exact I2|]. split; [congruence|exact V2].
    + exists L1. split; [exact I1|]. split; [exact C1|]. exact V1.
Qed.

(** ** The signal *)
Lemma scale_live L st r own B n : inv L st -> In (r, own, B) L -> n <> 0%Qc -> s_decays B = n ->
  exists st', on_heap (h_scale n r) st = (st', Ok tt) /\ inv L st' /\ fs_cur st' = fs_cur st /\ exists c, abs (fs_heap st') r = Some c /\ same_spectra c B.
Proof.
  intros I J Nn Dn. destruct (i_live _ _ I _ J) as (R & c & A & O). cbn in A, O, R.
  assert (E : res_eq same_spectra (apply_value KRate n c) (Ok B)).
  { assert (E0 : res_eq same_spectra (apply_value KRate n B) (Ok B)).
    { assert (D : s_decays B <> 0%Qc) by congruence. unfold apply_value, scale. subst n. rewrite qdiv_ok by exact D. cbn.
      split; [repeat split|]. intros idx _. cbn. field. exact D. }
    destruct O as [O|(_ & n1 & s1 & N1 & S1 & O)].
    - pose proof (scale_value n c B O) as K. destruct (apply_value KRate n c), (apply_value KRate n B); cbn in *; try contradiction. eapply same_trans; eassumption.
    - pose proof (rate_scaled n1 B s1 c n N1 S1 O) as K. destruct (apply_value KRate n c), (apply_value KRate n B); cbn in *; try contradiction. eapply same_trans; eassumption. }
  pose proof (scale_call n r (fs_heap st) c (i_wf _ _ I) A) as Gc. pose proof (frame_effect r _ _ _ Gc (ex_intro _ c A)) as F.
  destruct Gc as (_ & W1 & (c1 & A1 & S1) & O1). unfold on_heap. cbn [apply_value] in E.
  destruct (h_scale n r (fs_heap st)) as [h1 e1]. cbn [fst snd] in *. subst e1. destruct (scale n c) as [t [e|]]; cbn in E; [contradiction|]. cbn [fst snd] in *.
  assert (S2 : same_spectra c1 B) by (eapply same_trans; eassumption).
  eexists. split; [reflexivity|]. split; [|split; [reflexivity|now exists c1]].
  apply (inv_step L st (fs_with_heap st h1) (eq r) I eq_refl eq_refl W1 F).
  - intros x Ix. destruct (Nat.eq_dec r (e_ref x)) as [Ex|Nx]; [right|left; exact Nx].
    assert (x = (r, own, B)) as -> by (apply (entry_unique L); [exact (i_nodup _ _ I)|exact Ix|exact J|now symmetry]).
    exists c1. split; [exact A1|now left].
  - intros q <-. exact (i_apart _ _ I r (in_map e_ref _ _ J)).
Qed.
Notation sig_pm := (signal_ref_pm pf e0 files base location orig class dimension ft).
Lemma signal_ref_ok L st p args : inv L st -> ft_signal ft = Some p -> fs_cur st = map Some args -> good_args ft V args ->
  exists L', inv L' (fst (sig_pm p st)) /\ fs_cur (fst (sig_pm p st)) = fs_cur st /\
  match snd (sig_pm p st), conv p args with
  | Ok r, Ok B => exists c, abs (fs_heap (fst (sig_pm p st))) r = Some c /\ same_spectra c B
  | Err e, Err f => e = f
  | _, _ => False
  end.
Proof.
  intros I Ip C Ga. destruct (pr_signal _ _ PR p Ip) as (s & A & Ds). specialize (Ds GN). unfold signal_ref_pm.
  assert (E : forall k : list nat -> M nat, (match G with [] => mret (pt_ref p) | gs => k gs end) = k G) by (clear - GN; intro k; destruct G; [congruence|reflexivity]).
  rewrite (E (fun gs => let! s := look (pt_ref p) in let! x := through_cache ft p (load_pre_made pf e0 files base location orig class dimension ft gs (pt_ref p)) in
    let! _ := match_data ft (fst x) in let! _ := on_heap (h_scale (s_decays s) (fst x)) in mret (fst x))). clear E. cbv beta.
  assert (Ia : In p (all_parts ft)) by (unfold all_parts; apply in_or_app; right; rewrite Ip; now left).
  unfold mbind, look, mret. cbv beta. rewrite (original_there L st _ s I A).
  destruct (through_ok L st p args I Ia C Ga) as (C1 & V1).
  destruct (through_cache ft p (lpm p) st) as [st1 [[r own]|e]]; cbn [fst snd] in *; destruct (pm args p) as [t|] eqn:T; try contradiction.
  2:{ destruct V1 as (-> & I1). unfold conv. rewrite T. exists L. split; [exact I1|]. split; [exact C1|reflexivity]. }
  destruct V1 as (-> & V1).
  assert (X : exists L1 B st2, conv p args = Ok B /\ match_data ft r st1 = (st2, Ok tt) /\ inv L1 st2 /\ fs_cur st2 = fs_cur st1 /\ In (r, pt_own p, B) L1).
  { destruct V1 as [(B & Co & J & I1)|(P & c & Ac & S)].
    - destruct (i_live _ _ I1 _ J) as (R & c & Ac & O). destruct (match_live L st1 r _ B I1 J c Ac) as (st2 & E2 & I2 & C2 & _). now exists L, B, st2.
    - destruct (FF d p s args t AD Ia A Ga T) as (_ & (m & M & R) & _).
      pose proof (on_axes_ext d c t S) as X. rewrite M in X. destruct (on_axes_of d c) as [m2|] eqn:M2; cbn in X; [|contradiction].
      destruct (pending_match L p args st1 r c m2 P Ac M2) as (st2 & E2 & P2 & C2 & a2 & A2 & S2).
      exists ((r, pt_own p, m) :: L), m, st2. split; [exact (conv_of p args t m T M)|]. split; [exact E2|]. split; [|split; [exact C2|now left]].
      apply (settle L p args st2 r m a2 P2 Ia Ga (conv_of p args t m T M) R A2). left. eapply same_trans; eassumption. }
  destruct X as (L1 & B & st2 & Co & E2 & I2 & C2 & J). rewrite E2, Co.
  assert (DB : s_decays B = s_decays s).
  { unfold conv in Co. rewrite T in Co. cbn [rbind] in Co. rewrite (on_axes_decays d t B Co). exact (pm_decays p args s t A T). }
  destruct (scale_live L1 st2 r _ B (s_decays s) I2 J Ds DB) as (st3 & E3 & I3 & C3 & c3 & A3 & S3). rewrite E3. cbn [fst snd].
  exists L1. split; [exact I3|]. split; [congruence|]. now exists c3.
Qed.
Notation addsig_pm := (add_signal_pm pf e0 files base location orig class dimension ft).
Lemma add_signal_ok L st args a a' : inv L st -> fs_cur st = map Some args -> good_args ft V args -> arr_eq a a' ->
  good opt_eq st (addsig_pm (Some a) st) (sum_parts (Some a') (match ft_signal ft with Some p => [pmc args [] p] | None => [] end)).
Proof.
  intros I C Ga Ea. unfold add_signal_pm. case_eq (ft_signal ft); [intros p Sg|intro Sg].
  2:{ exists L. split; [exact I|]. split; [reflexivity|exact Ea]. }
  destruct (signal_ref_ok L st p args I Sg C Ga) as (L1 & I1 & C1 & V1). unfold mbind at 1.
  assert (E : pmc args [] p = rbind (conv p args) (nd_project (pt_pars p))) by (rewrite floating_split; destruct (conv p args); reflexivity).
  rewrite FitRun.sum_parts_cons, E. clear E. destruct (sig_pm p st) as [st1 [r|e]]; cbn [fst snd] in *; destruct (conv p args) as [B|]; try contradiction.
  2:{ exists L1. split; [exact I1|]. split; [exact C1|]. exact V1. }
  destruct V1 as (c & Ac & Sc). unfold mbind, projection, look, mlift, mbind, mret. rewrite Ac. cbn [rbind].
  pose proof (nd_project_ext (pt_pars p) c B Sc) as E. destruct (nd_project (pt_pars p) c) as [x|], (nd_project (pt_pars p) B) as [y|]; cbn in E; try contradiction; cbn [rbind].
  2:{ exists L1. split; [exact I1|]. split; [exact C1|]. exact E. }
  pose proof (FitRun.add_to_ext (Some a) (Some a') x y Ea E) as K. destruct (add_to (Some a) x) as [z|], (add_to (Some a') y) as [z'|]; cbn in K; try contradiction; cbn [rbind];
    (exists L1; split; [exact I1|]; split; [exact C1|]; exact K).
Qed.

(** ** One call and any history of calls *)
Notation pair_eq := FitRun.pair_eq.
Notation run_pm := (spectra_of_pm pf e0 files base location orig class dimension ft).
Notation fit_pm := (pre_made_fitted pf e0 files base location orig class dimension ft h0).
Lemma spectra_of_ok L st args : inv L st -> good_args ft V args -> forall x, run_pm args st = x ->
  exists L', inv L' (fst x) /\ fs_cur (fst x) = map Some args /\ res_eq pair_eq (snd x) (fit_pm args).
Proof.
  intros I Ga x. unfold spectra_of_pm, pre_made_fitted, observed. case_eq (ft_floating ft); [intro FL; destruct (pr_some _ _ PR FL)|intros p0 fl FL]. rewrite <- FL.
  pose proof Ga as (Le & _). unfold mbind at 1. rewrite FitRun.set_currents_ok by (rewrite (i_cur _ _ I); exact Le). cbn [fst snd].
  set (st1 := fs_with_cur st (map Some args)). assert (C : fs_cur st1 = map Some args) by reflexivity.
  assert (I1 : inv L st1). { apply (inv_step L st st1 (fun _ => False) I); [reflexivity| |exact (i_wf _ _ I)|apply frame_refl|intros; now left|intros r []]. cbn. rewrite map_length, (i_cur _ _ I). exact Le. }
  clearbody st1. unfold mbind at 1, projection at 1, mbind at 1, look at 1, mlift at 1. rewrite (data_there _ _ I1).
  unfold shown at 1. rewrite AD. cbn [rbind]. destruct (nd_project (ft_data_pars ft) d) as [obs|e]; [|intros <-; exists L; split; [exact I1|split; [exact C|reflexivity]]]. cbn [rbind].
  unfold shown at 1. rewrite AD. cbn [rbind].
  assert (Fx : exists accr, (match ft_fixed ft with None => mret None | Some (r, pars) => let! a := projection r pars in mret (Some a) end) st1 = (st1, accr) /\
                 accr = match ft_fixed ft with None => Ok None | Some (r, pars) => do s <- shown h0 r; rmap Some (nd_project pars s) end).
  { case_eq (ft_fixed ft); [intros [r pars] Ff|intros _; eexists; split; reflexivity]. destruct (pr_fixed _ _ PR _ _ Ff) as (s & As).
    unfold mbind, projection, mbind, look, mlift, mret, shown. rewrite (original_there L st1 r s I1 As), As. cbn [rbind].
    destruct (nd_project pars s); eexists; split; reflexivity. }
  unfold mbind at 1. destruct Fx as (accr & -> & <-). destruct accr as [acc|e]; [|intros <-; exists L; split; [exact I1|split; [exact C|reflexivity]]]. cbn [rbind].
  assert (Ea : opt_eq acc acc) by (destruct acc; cbn; [apply FitRun.arr_refl|exact Logic.I]).
  destruct (add_floatings_ok args Ga (ft_floating ft) L st1 acc acc I1 (incl_refl _) C Ea) as (L2 & I2 & C2 & V2).
  rewrite FitRun.sum_parts_app. unfold mbind at 1. destruct (adds_pm (ft_floating ft) acc st1) as [st2 [e2|e2]]; cbn [fst snd] in *;
    destruct (sum_parts acc (map (fun p => pmc args (pt_own p) p) (ft_floating ft))) as [e3|e3] eqn:SP; cbn in V2; try contradiction.
  2:{ intros <-. exists L2. split; [exact I2|]. split; [cbn; congruence|exact V2]. }
  assert (Ns : e3 <> None).
  { rewrite FL in SP. cbn [map] in SP. rewrite FitRun.sum_parts_cons in SP. destruct (rbind (pmc args (pt_own p0) p0) (add_to acc)) as [b|]; [|discriminate].
    cbn [rbind] in SP. now apply FitRun.sum_parts_some in SP. }
  destruct e3 as [e3|]; [|congruence]. destruct e2 as [e2|]; [|contradiction]. cbn [rbind].
  destruct (add_signal_ok L2 st2 args e2 e3 I2 (eq_trans C2 C) Ga V2) as (L3 & I3 & C3 & V3). unfold mbind at 1.
  destruct (addsig_pm (Some e2) st2) as [st3 [e4|e4]]; cbn [fst snd] in *;
    destruct (sum_parts (Some e3) (match ft_signal ft with Some p => [pmc args [] p] | None => [] end)) as [e5|e5]; cbn in V3; try contradiction.
  - destruct e4 as [e4|], e5 as [e5|]; cbn in V3; try contradiction; intros <-; exists L3; (split; [exact I3|]); (split; [cbn; congruence|]); cbn; [split; [apply FitRun.arr_refl|exact V3]|reflexivity].
  - intros <-. exists L3. split; [exact I3|]. split; [cbn; congruence|exact V3].
Qed.
Lemma start_inv : inv [] (f_start ft h0).
Proof.
  constructor; cbn [f_start fs_heap fs_cache fs_cur map]; try (now intros ? []); try discriminate.
  - exact (pr_heap _ _ PR).
  - apply map_length.
  - apply frame_refl.
  - constructor.
Qed.
Notation hist_pm := (f_run_pm pf e0 files base location orig class dimension ft).
Lemma run_inv l : Forall (good_args ft V) l -> forall L st, inv L st -> exists L', inv L' (hist_pm l st).
Proof.
  induction 1 as [|args l Ha _ IH]; intros L st I; [now exists L|]. cbn [f_run_pm]. destruct (spectra_of_ok L st args I Ha _ eq_refl) as (L1 & I1 & _). now apply (IH L1).
Qed.
Lemma fitted_pm_l l args : Forall (good_args ft V) l -> good_args ft V args ->
  res_eq pair_eq (snd (run_pm args (hist_pm l (f_start ft h0)))) (fit_pm args).
Proof.
  intros Hl Ha. destruct (run_inv l Hl [] _ start_inv) as (L & I). destruct (spectra_of_ok L _ args I Ha _ eq_refl) as (L1 & _ & _ & E). exact E.
Qed.
(** The spectra the fit was given are not changed. *)
Lemma given_kept l r s : Forall (good_args ft V) l -> abs h0 r = Some s -> abs (fs_heap (hist_pm l (f_start ft h0))) r = Some s.
Proof. intros Hl A. destruct (run_inv l Hl [] _ start_inv) as (L & I). exact (original_there L _ r s I A). Qed.
End Run.
Lemma pm_history pf e0 files base location orig class dimension ft h V l args : prepared ft h -> distinct_printing ft V -> global_pars ft <> [] ->
  files_fit pf e0 files base location orig class dimension ft h V -> Forall (good_args ft V) l -> good_args ft V args ->
  same_res same_pair (snd (spectra_of_pm pf e0 files base location orig class dimension ft args (f_run_pm pf e0 files base location orig class dimension ft l (f_start ft h))))
    (pre_made_fitted pf e0 files base location orig class dimension ft h args) /\
  forall r s, abs h r = Some s -> abs (fs_heap (f_run_pm pf e0 files base location orig class dimension ft l (f_start ft h))) r = Some s.
Proof.
  intros P D GN FF Hl Ha. destruct (pr_data _ _ P) as (d & A & W & _). split.
  - exact (fitted_pm_l pf e0 files base location orig class dimension ft h V d P D A W GN FF l args Hl Ha).
  - intros r s As. exact (given_kept pf e0 files base location orig class dimension ft h V d P D A W GN FF l r s Hl As).
Qed.
(** Without global parameters no file is loaded. *)
Lemma pm_no_global pf e0 files base location orig class dimension ft args st : global_pars ft = [] ->
  spectra_of_pm pf e0 files base location orig class dimension ft args st = spectra_of ft args st.
Proof.
  intro GE. unfold spectra_of_pm, spectra_of.
  assert (E : forall l acc st, add_floatings_pm pf e0 files base location orig class dimension ft l acc st = add_floatings ft l acc st).
  { clear st. induction l as [|p l IH]; intros acc st; [reflexivity|]. cbn [add_floatings_pm add_floatings]. unfold mbind at 1 2. unfold add_floating_pm, add_floating. rewrite GE.
    match goal with |- context [let (_, _) := ?x in _] => destruct x as [st1 [a|]] end; [apply IH|reflexivity]. }
  assert (E2 : forall acc st, add_signal_pm pf e0 files base location orig class dimension ft acc st = add_signal ft acc st).
  { intros acc st'. unfold add_signal_pm, add_signal. destruct (ft_signal ft) as [p|]; [|reflexivity]. unfold signal_ref_pm, signal_ref. now rewrite GE. }
  destruct (ft_floating ft) as [|p l]; [reflexivity|]. unfold mbind. destruct (set_currents args (fs_cur st)) as [c [e|]]; [reflexivity|].
  destruct (projection (ft_data ft) (ft_data_pars ft) (fs_with_cur st c)) as [st1 [obs|]]; [|reflexivity].
  match goal with |- (let (_, _) := ?x in _) = _ => destruct x as [st2 [acc|]] end; [|reflexivity].
  rewrite E. destruct (add_floatings ft (p :: l) acc st2) as [st3 [a3|]]; [|reflexivity]. rewrite E2. reflexivity.
Qed.

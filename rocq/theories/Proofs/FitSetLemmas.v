(** The preparation of a fit on the heap. *)
From Coq Require Import Lia Permutation.
From Verif Require Import Model.Base Model.PyStr Model.NDArray Model.Param Model.Config Model.Spectra Model.Smear Model.Shift Model.Heap Model.Minimise Model.Fit Model.FitPrepare.
From Verif Require Import Spec.AxisSpec Spec.ArraySpec Spec.SpectraSpec Spec.ShrinkSpec Spec.HeapSpec Spec.FitRunSpec Spec.FitSetSpec.
From Verif Require Import Proofs.QcLemmas Proofs.NDArrayLemmas Proofs.StrLemmas Proofs.DictLemmas Proofs.ParamLemmas
  Proofs.ShrinkProps Proofs.OpsLemmas Proofs.ExtLemmas Proofs.HeapLemmas Proofs.FitLemmas Proofs.FitPrep Proofs.RoiLemmas.

(** ** Heaps that differ in given places only *)
Record kept (C B R : nat -> Prop) (h h' : heap) : Prop := Kept {
  k_cfgs : forall i c, ~ C i -> nth_error (h_cfgs h) i = Some c -> nth_error (h_cfgs h') i = Some c;
  k_bufs : forall i c, ~ B i -> nth_error (h_bufs h) i = Some c -> nth_error (h_bufs h') i = Some c;
  k_roid : forall i c, nth_error (h_roid h) i = Some c -> nth_error (h_roid h') i = Some c;
  k_objs : forall r o, ~ R r -> nth_error (h_objs h) r = Some o -> nth_error (h_objs h') r = Some o;
  k_refs : forall r o, nth_error (h_objs h) r = Some o -> exists o', nth_error (h_objs h') r = Some o' /\ o_cfg o' = o_cfg o;
  k_len : length (h_objs h) <= length (h_objs h');
  k_blen : length (h_bufs h) <= length (h_bufs h') }.

Lemma kept_refl C B R h : kept C B R h h.
Proof. constructor; auto. intros r o H. eauto. Qed.
Lemma kept_trans C B R h h1 h2 : kept C B R h h1 -> kept C B R h1 h2 -> kept C B R h h2.
Proof.
  intros [A1 A2 A3 A4 A5 A6 A7] [B1 B2 B3 B4 B5 B6 B7]. constructor; auto; try lia.
  intros r o H. destruct (A5 r o H) as (o1 & H1 & E1). destruct (B5 r o1 H1) as (o2 & H2 & E2). exists o2. split; [exact H2|congruence].
Qed.
Lemma kept_weaken (C B R C' B' R' : nat -> Prop) h h' : (forall i, i < length (h_cfgs h) -> C i -> C' i) -> (forall i, i < length (h_bufs h) -> B i -> B' i) ->
  (forall i, i < length (h_objs h) -> R i -> R' i) -> kept C B R h h' -> kept C' B' R' h h'.
Proof.
  intros HC HB HR [A1 A2 A3 A4 A5 A6 A7]. constructor; auto.
  - intros i c N H. apply A1; [|exact H]. intro K. apply N, HC; [now apply nth_some_lt in H|exact K].
  - intros i c N H. apply A2; [|exact H]. intro K. apply N, HB; [now apply nth_some_lt in H|exact K].
  - intros i c N H. apply A4; [|exact H]. intro K. apply N, HR; [now apply nth_some_lt in H|exact K].
Qed.
Lemma kept_cfg_of C B R h h' r x : kept C B R h h' -> cfg_of h r = Some x -> cfg_of h' r = Some x.
Proof.
  intros K H. unfold cfg_of in *. destruct (nth_error (h_objs h) r) as [o|] eqn:O; [|discriminate]. destruct (k_refs _ _ _ _ _ K r o O) as (o' & -> & E).
  cbn in *. congruence.
Qed.
Lemma kept_abs C B R h h' r o s : kept C B R h h' -> nth_error (h_objs h) r = Some o -> ~ R r -> ~ C (o_cfg o) -> ~ B (o_buf o) -> abs h r = Some s -> abs h' r = Some s.
Proof.
  intros K O NR NC NB H. destruct (abs_split h r s H) as (o' & c & b & d & O' & C' & B' & D' & ->). assert (o' = o) as -> by congruence.
  destruct K. apply abs_join; auto.
Qed.
(** The configuration object has changed. *)
Lemma kept_abs_cfg C B R h h' r o s c' : kept C B R h h' -> nth_error (h_objs h) r = Some o -> ~ R r -> ~ B (o_buf o) -> nth_error (h_cfgs h') (o_cfg o) = Some c' ->
  abs h r = Some s -> exists s', abs h' r = Some s' /\ only_config s s' /\ s_cfg s' = c'.
Proof.
  intros K O NR NB E H. destruct (abs_split h r s H) as (o' & c & b & d & O' & C' & B' & D' & ->). assert (o' = o) as -> by congruence.
  destruct K. eexists. split; [apply abs_join; [exact (k_objs0 r o NR O)|exact E|exact (k_bufs0 _ _ NB B')|exact (k_roid0 _ _ D')]|].
  split; [|reflexivity]. repeat split.
Qed.
Lemma kept_effect wc wb r h x y s : good_call wc wb false r h x y -> abs h r = Some s ->
  forall o, nth_error (h_objs h) r = Some o -> kept (fun i => wc = true /\ i = o_cfg o) (fun i => wb = true /\ i = o_buf o) (eq r) h (fst x).
Proof.
  intros (E & W & _) A o O'. destruct (E o O') as [L O S C D B F G H]. constructor.
  - intros i c N K. rewrite D; [exact K|]. destruct wc; [right|left; reflexivity]. intro; subst. now apply N.
  - intros i c N K. rewrite F; [exact K| |now apply nth_some_lt in K]. destruct wb; [right|left; reflexivity]. intro; subst. now apply N.
  - intros i c K. rewrite H by auto. exact K.
  - intros r' o' N K. rewrite O by congruence. exact K.
  - intros r' o' K. destruct (Nat.eq_dec r' r) as [->|N].
    + destruct S as (o1 & S1 & S2 & _). exists o1. assert (o' = o) as -> by congruence. auto.
    + exists o'. rewrite O by exact N. auto.
  - lia.
  - exact B.
Qed.
Lemma kept_grows C B R h h' o : grows h h' o -> kept C B R h h'.
Proof.
  intros (O & C' & B' & R'). constructor; try (intros i c _; now apply grows_nth); try (intros i c; now apply grows_nth).
  - intros r o' _ H. rewrite O, nth_app_old; [exact H|now apply nth_some_lt in H].
  - intros r o' H. exists o'. split; [|reflexivity]. rewrite O, nth_app_old; [exact H|now apply nth_some_lt in H].
  - rewrite O, app_length. lia.
  - now apply grows_len.
Qed.

(** ** Restricting a spectrum object *)
Lemma cfg_of_obj h r x : cfg_of h r = Some x -> exists o, nth_error (h_objs h) r = Some o /\ o_cfg o = x.
Proof. unfold cfg_of. destruct (nth_error (h_objs h) r) as [o|]; [|discriminate]. intro H. injection H as <-. eauto. Qed.
Lemma cfg_of_abs h r x s : cfg_of h r = Some x -> abs h r = Some s -> nth_error (h_cfgs h) x = Some (s_cfg s).
Proof.
  intros H A. apply cfg_of_obj in H as (o & O & <-). destruct (abs_split h r s A) as (o' & c & b & d & O' & C' & B' & D' & ->). assert (o' = o) as -> by congruence. exact C'.
Qed.
Lemma region_same roi s s1 s2 : in_region roi s s1 -> same_spectra s2 s1 -> wf_spectra s2 -> in_region roi s s2.
Proof.
  intros (W & K & st & F & B) [(M1 & M2 & M3 & M4 & M5 & M6 & M7 & M8) G] W2. split; [exact W2|]. split; [now rewrite M3|].
  exists st. split; [exact F|]. destruct B as (S & V & N1 & N2 & N3 & N4 & N5 & N6). split; [congruence|]. split; [|repeat split; congruence].
  intros i I. rewrite G by exact I. apply V. now rewrite <- M8.
Qed.
Lemma wf_same s1 s2 : wf_spectra s1 -> same_spectra s2 s1 -> wf_spectra s2.
Proof.
  intros [W C] [(M1 & M2 & M3 & M4 & M5 & M6 & M7 & M8) G]. unfold wf_spectra, consistent in *. rewrite M3, M8. auto.
Qed.
Lemma region_restrictable roi s s' : restrictable roi s -> in_region roi s s' -> restrictable roi s'.
Proof.
  intros ([[N W] C] & A & S) (W' & K & _). split; [exact W'|]. destruct W' as [[N' Wa'] C'].
  split; [exact (cut_axes_ok roi _ _ W A S K)|]. destruct A as (_ & _ & ND & _). exact (cut_suits roi _ _ Wa' ND S K).
Qed.
Lemma shrink_obj_l roi r h s x : wf_heap h -> abs h r = Some s -> restrictable roi s -> cfg_of h r = Some x ->
  exists h' s', shrink_spectra roi r h = (h', None) /\ wf_heap h' /\ abs h' r = Some s' /\ in_region roi s s' /\
    kept (eq x) (fun _ => False) (eq r) h h'.
Proof.
  intros W A (Ws & Ax & S) X. destruct (region_l roi s Ws Ax S) as (kw & s1 & K & E & I). unfold shrink_spectra. rewrite A, K.
  pose proof (shrink_call kw r h s W A) as G. rewrite E in G. pose proof G as (_ & W' & (s' & A' & M) & N). cbn [fst snd] in *.
  exists (fst (h_shrink kw r h)), s'. split; [rewrite <- N; apply surjective_pairing|]. split; [exact W'|]. split; [exact A'|].
  split. { apply (region_same roi s s1 s' I M). apply (wf_same s1); [apply I|exact M]. }
  apply cfg_of_obj in X as (o & O & <-).
  apply (kept_weaken (fun i => true = true /\ i = o_cfg o) (fun i => false = true /\ i = o_buf o) (eq r)); [intuition|intros i _ []; discriminate|auto|].
  exact (kept_effect true false r h _ _ s G A o O).
Qed.
Lemma scale_buf n r h h' s : abs h r = Some s -> h_scale n r h = (h', None) ->
  exists o, nth_error (h_objs h') r = Some o /\ o_buf o = length (h_bufs h).
Proof.
  intros A. unfold h_scale. match goal with |- context [on_obj h r ?k] => destruct (on_obj_some h r s k A) as (o & O & V & ->) end.
  destruct (qdiv n (s_decays s)) as [f|e]; [|discriminate]. intro H. injection H as <-. eexists. cbn. split; [apply nth_lset_same; now apply nth_some_lt in O|reflexivity].
Qed.

(** ** Adding spectra with the same axes *)
Lemma check_dims_refl : forall l l', (forall x, In x l -> In x l') -> check_dims l l' = Ok tt.
Proof.
  induction l as [|a l IH]; intros l' H; [reflexivity|]. cbn. assert (E : str_in a l' = true) by (apply str_in_iff, H; now left). rewrite E. apply IH. intros x I. apply H. now right.
Qed.
Lemma same_dims_in c c' v p : same_dims c c' -> In (v, p) c -> exists u, In (u, p) c' /\ get_dim u = get_dim v.
Proof.
  induction 1 as [|[v1 p1] [v2 p2] c c' (A & B) H IH]; intro I; [destruct I|]. cbn in *. subst p2. destruct I as [I|I].
  - injection I as -> ->. exists v2. auto.
  - destruct (IH I) as (u & X & Y). exists u. auto.
Qed.
Lemma same_dims_sym c c' : same_dims c c' -> same_dims c' c.
Proof. induction 1 as [|x y c c' (A & B) H IH]; constructor; auto. Qed.
Lemma same_dims_map c c' : same_dims c c' -> map (fun y => get_dim (fst y)) c' = map (fun y => get_dim (fst y)) c.
Proof. induction 1 as [|x y c c' (A & B) H IH]; [reflexivity|]. cbn. congruence. Qed.
Lemma same_dims_shape c c' : same_dims c c' -> cfg_shape c' = cfg_shape c.
Proof. induction 1 as [|x y c c' (A & B) H IH]; [reflexivity|]. unfold cfg_shape in *. cbn. rewrite B. f_equal. exact IH. Qed.
Lemma dims_in c d : In d (get_dims c) <-> exists v p, In (v, p) c /\ get_dim v = d.
Proof.
  unfold get_dims. rewrite in_map_iff. split.
  - intros (v & <- & I). apply (Permutation_in v (str_sort_perm _)) in I. unfold get_pars, dkeys in I. apply in_map_iff in I as ((v' & p) & <- & I). exists v', p. auto.
  - intros (v & p & I & <-). exists v. split; [reflexivity|]. eapply Permutation_in; [apply Permutation_sym, str_sort_perm|]. apply (in_map fst) in I. exact I.
Qed.
Lemma names_nodup c : NoDup (map (fun y : string * spar => get_dim (fst y)) c) -> NoDup (map fst c).
Proof. intro N. rewrite <- (map_map fst get_dim) in N. exact (NoDup_map_inv get_dim _ N). Qed.
Lemma diff_types_ok mine other : NoDup (map (fun y : string * spar => get_dim (fst y)) other) -> forall vs, (forall v, In v vs -> In v (get_pars other)) ->
  exists types, diff_types mine other vs = Ok types /\
    forall d, dget d types = match find (fun v => negb (str_in v (get_pars mine)) && String.eqb (get_dim v) d) vs with
                             | Some v => Some (last (split_char "_"%char v) ""%string) | None => None end.
Proof.
  intro N. induction vs as [|v vs IH]; intro H; [exists []; auto|]. destruct IH as (ts & E & G). { intros u I. apply H. now right. }
  cbn [diff_types find]. destruct (str_in v (get_pars mine)) eqn:M; cbn [negb andb]; [exists ts; auto|].
  pose proof (H v (or_introl eq_refl)) as I. unfold get_pars, dkeys in I. apply in_map_iff in I as ((v' & p) & <- & I). cbn [fst] in *.
  rewrite (dim_type_of other v' p N I), E. cbn [rbind]. eexists. split; [reflexivity|]. intro d. cbn [dget].
  rewrite (String.eqb_sym d). destruct (String.eqb (get_dim v') d); [reflexivity|apply G].
Qed.
Lemma add_accepts s o : NoDup (map (fun y => get_dim (fst y)) (s_cfg s)) -> Forall (fun y => typed_name (fst y)) (s_cfg o) ->
  same_dims (s_cfg s) (s_cfg o) -> ashape (s_data o) = ashape (s_data s) -> add_check s o = Ok tt.
Proof.
  intros N T E S. pose proof (same_dims_sym _ _ E) as E'. assert (N' : NoDup (map (fun y => get_dim (fst y)) (s_cfg o))) by (now rewrite (same_dims_map _ _ E)).
  unfold add_check. rewrite S. unfold shape_eqb. rewrite idx_eqb_refl. cbn [negb].
  rewrite check_dims_refl. 2:{ intros d I. apply dims_in in I as (v & p & I & <-). apply dims_in. destruct (same_dims_in _ _ v p E I) as (u & J & D). eauto. }
  rewrite check_dims_refl. 2:{ intros d I. apply dims_in in I as (v & p & I & <-). apply dims_in. destruct (same_dims_in _ _ v p E' I) as (u & J & D). eauto. }
  cbn [rbind]. destruct (diff_types_ok (s_cfg s) (s_cfg o) N' (get_pars (s_cfg o)) ltac:(auto)) as (ts & -> & G). cbn [rbind].
  assert (P : forall vs, (forall v, In v vs -> In v (get_pars (s_cfg s))) -> check_pars (s_cfg s) (s_cfg o) ts vs = Ok tt).
  { induction vs as [|v vs IH]; intro H; [reflexivity|]. cbn [check_pars]. rewrite IH by (intros u I; apply H; now right).
    assert (X : check_par (s_cfg s) (s_cfg o) ts v = Ok tt); [|now rewrite X]. unfold check_par. pose proof (H v (or_introl eq_refl)) as I.
    unfold get_pars, dkeys in I. apply in_map_iff in I as ((v' & p) & <- & I). cbn [fst].
    destruct (same_dims_in _ _ v' p E I) as (u & J & D).
    assert (Nm : match dget (get_dim v') ts with Some t => (get_dim v' ++ "_" ++ t)%string | None => v' end = u).
    { rewrite G. destruct (find _ _) as [w|] eqn:Fd.
      - apply find_some in Fd as [Iw Q]. apply andb_prop in Q as [_ Q]. apply String.eqb_eq in Q. unfold get_pars, dkeys in Iw. apply in_map_iff in Iw as ((w' & q) & <- & Iw). cbn [fst] in *.
        pose proof (NoDup_map_inj _ (s_cfg o) (w', q) (u, p) N' Iw J (eq_trans Q (eq_sym D))) as Y. injection Y as -> ->.
        rewrite <- D. rewrite Forall_forall in T. symmetry. exact (typed_decompose u (T _ J)).
      - pose proof (find_none _ _ Fd u) as Q. cbn in Q. rewrite D, String.eqb_refl, andb_true_r in Q.
        assert (Iu : In u (get_pars (s_cfg o))) by (apply (in_map fst) in J; exact J). specialize (Q Iu). apply negb_false_iff, str_in_iff in Q.
        unfold get_pars, dkeys in Q. apply in_map_iff in Q as ((u' & q) & <- & Q). cbn [fst] in *. pose proof (NoDup_map_inj _ (s_cfg s) (u', q) (v', p) N Q I D) as Y. now injection Y as -> ->. }
    rewrite Nm. unfold get_par. rewrite (proj2 (dlookup_ok v' (s_cfg s) p) (In_dget v' p (s_cfg s) (names_nodup _ N) I)). cbn [rbind].
    rewrite (proj2 (dlookup_ok u (s_cfg o) p) (In_dget u p (s_cfg o) (names_nodup _ N') J)). cbn [rbind].
    now rewrite !isclose_refl, Z.eqb_refl. }
  apply P. auto.
Qed.

(** ** One scaled copy *)
Lemma then_ok x h f : x = (h, None) -> then_ x f = f h.
Proof. now intros ->. Qed.
Lemma abs_cfg_of h r s : abs h r = Some s -> exists x, cfg_of h r = Some x.
Proof. intro A. destruct (abs_split h r s A) as (o & c & b & d & O & _). exists (o_cfg o). unfold cfg_of. now rewrite O. Qed.
Lemma copy_scaled_l roi r n h s x : wf_heap h -> abs h r = Some s -> restrictable roi s -> s_decays s <> 0%Qc -> cfg_of h r = Some x ->
  exists h' s' s2, copy_scaled true roi r n h = (h', None) /\ wf_heap h' /\ in_region roi s s' /\
    abs h' (length (h_objs h)) = Some s2 /\ wf_spectra s2 /\ s_cfg s2 = s_cfg s' /\ ashape (s_data s2) = ashape (s_data s') /\
    s_decays s2 = n /\ s_raw s2 = s_raw s /\ s_name s2 = s_name s /\
    (forall i, valid_idx (ashape (s_data s')) i -> aget (s_data s2) i = (aget (s_data s') i * (n / s_decays s))%Qc) /\
    cfg_of h' (length (h_objs h)) = Some x /\ nth_error (h_cfgs h') x = Some (s_cfg s') /\
    kept (eq x) (fun _ => False) (fun _ => False) h h' /\
    exists o, nth_error (h_objs h') (length (h_objs h)) = Some o /\ length (h_bufs h) <= o_buf o.
Proof.
  intros W A Re D X. set (t := length (h_objs h)). destruct (copy_call r h s W A) as (N1 & W1 & o1 & s1 & G1 & A1 & M1). fold t in A1.
  set (h1 := fst (h_copy r h)) in *. assert (E1 : h_copy r h = (h1, None)) by (rewrite <- N1; apply surjective_pairing).
  assert (X1 : cfg_of h1 t = Some x).
  { revert E1. unfold h_copy. match goal with |- context [on_obj h r ?k] => destruct (on_obj_some h r s k A) as (o & O & V & ->) end. intro E. injection E as E.
    rewrite <- E. unfold cfg_of, new_obj, t. cbn. rewrite nth_app_new. cbn. unfold cfg_of in X. rewrite O in X. exact X. }
  assert (Re1 : restrictable roi s1).
  { destruct Re as (Re1 & Re2 & Re3). pose proof M1 as [(_ & _ & C1 & _) _]. unfold restrictable. rewrite C1. split; [exact (wf_same s s1 Re1 M1)|auto]. }
  destruct (shrink_obj_l roi t h1 s1 x W1 A1 Re1 X1) as (h2 & s' & E2 & W2 & A2 & I2 & K2).
  assert (I : in_region roi s s').
  { destruct I2 as (Wr & K & st & F & B). pose proof M1 as [(P1 & P2 & P3 & P4 & P5 & P6 & P7 & P8) G]. split; [exact Wr|]. rewrite P3 in K, F. split; [exact K|].
    exists st. split; [exact F|]. destruct B as (B1 & B2 & B3 & B4 & B5 & B6 & B7 & B8). split; [exact B1|]. split; [|repeat split; congruence].
    intros i V. destruct (B2 i V) as (V' & Q). rewrite <- P8. split; [exact V'|]. rewrite Q. now apply G. }
  assert (Ds' : s_decays s' = s_decays s). { destruct I as (_ & _ & st & _ & B). apply B. }
  assert (Dn : s_decays s' <> 0%Qc) by congruence.
  destruct (scale_l s' n Dn) as (s3 & E3 & Q1 & Q2 & Q3 & Q4 & Q5 & Q6 & Q7 & _).
  pose proof (scale_call n t h2 s' W2 A2) as G3. rewrite E3 in G3. pose proof G3 as (_ & W3 & (s2 & A3 & M3) & N3). cbn [fst snd] in *.
  set (h3 := fst (h_scale n t h2)) in *. assert (E3' : h_scale n t h2 = (h3, None)) by (rewrite <- N3; apply surjective_pairing).
  pose proof (scale_buf n t h2 h3 s' A2 E3') as (o3 & O3 & B3).
  pose proof (kept_cfg_of _ _ _ _ _ _ _ K2 X1) as X2. pose proof X2 as X2'. apply cfg_of_obj in X2' as (o2 & O2 & C2).
  pose proof (kept_effect false false t h2 _ _ s' G3 A2 o2 O2) as K3. cbn [fst] in K3. fold h3 in K3.
  exists h3, s', s2. split. { unfold copy_scaled. fold t. rewrite E1. unfold then_ at 2. cbn [snd fst]. rewrite E2. unfold then_. cbn [snd fst]. exact E3'. }
  split; [exact W3|]. split; [exact I|]. split; [exact A3|].
  pose proof M3 as [(P1 & P2 & P3 & P4 & P5 & P6 & P7 & P8) G].
  split. { apply (wf_same s3); [|exact M3]. destruct I as ([Y1 Y2] & _). unfold wf_spectra, consistent in *. rewrite Q2, Q6. auto. }
  split; [congruence|]. split; [congruence|]. split; [congruence|]. split. { rewrite P5, Q3. destruct I as (_ & _ & st & _ & B). apply B. }
  split. { rewrite P1, Q4. destruct I as (_ & _ & st & _ & B). apply B. }
  split. { intros i V. rewrite G by (rewrite P8, Q6; exact V). rewrite Q7, Ds'. reflexivity. }
  split; [exact (kept_cfg_of _ _ _ _ _ _ _ K3 X2)|]. split.
  { apply (k_cfgs _ _ _ _ _ K3); [intros [Y _]; discriminate|]. exact (cfg_of_abs h2 t x s' X2 A2). }
  split.
  { apply (kept_weaken (eq x) (fun _ => False) (eq t)); [auto|auto|unfold t; lia|].
    apply (kept_trans _ _ _ h h1); [exact (kept_grows _ _ _ h h1 o1 G1)|]. apply (kept_trans _ _ _ h1 h2); [exact K2|].
    apply (kept_weaken (fun i => false = true /\ i = o_cfg o2) (fun i => false = true /\ i = o_buf o2) (eq t)); [intros i _ [Y _]; discriminate|intros i _ [Y _]; discriminate|auto|exact K3]. }
  exists o3. split; [exact O3|]. rewrite B3. pose proof (k_blen _ _ _ _ _ K2) as Y2. pose proof (k_blen _ _ _ _ _ (kept_grows (eq x) (eq x) (eq x) h h1 o1 G1)) as Y1. lia.
Qed.

(** ** The fixed background *)
Definition fits_region (roi : rdict) (c' c : sconfig) : Prop :=
  Forall2 (fun x y => get_dim (fst x) = get_dim (fst y) /\ sp_low (snd x) = roi_low roi (fst y) (snd y) /\
                      sp_high (snd x) = roi_high roi (fst y) (snd y) /\ bin_width (snd x) = bin_width (snd y)) c' c.
Definition fixable (roi : rdict) (c' : sconfig) (h : heap) (rn : nat * Qc) : Prop :=
  exists s, abs h (fst rn) = Some s /\ restrictable roi s /\ s_decays s <> 0%Qc /\ fits_region roi c' (s_cfg s).
Lemma fits_cut roi c' c c1 : Forall (fun kp => wf_axis (snd kp)) c' -> Forall (fun kp => wf_axis (snd kp)) c1 -> fits_region roi c' c -> cut_axes roi c c1 -> same_dims c' c1.
Proof.
  intros W1 W2 H. revert c1 W2. induction H as [|[v p] [v1 p1] c c2 (A1 & A2 & A3 & A4) H IH]; intros c1 W2 K; inversion K as [|x [v2 p2] c3 c4 (B1 & B2 & B3 & B4) K']; subst; [constructor|].
  inversion W1; inversion W2; subst. cbn in *. constructor; [|now apply IH]. cbn. split; [congruence|]. apply axis_eq; congruence.
Qed.
Definition cfgs_in (h : heap) (l : list (nat * Qc)) : list (option nat) := map (fun rn => cfg_of h (fst rn)) l.

Lemma obj_of h r s : abs h r = Some s -> exists o, nth_error (h_objs h) r = Some o.
Proof. intro A. destruct (abs_split h r s A) as (o & c & b & d & O & _). eauto. Qed.
Lemma wf_buf h r o : wf_heap h -> nth_error (h_objs h) r = Some o -> o_buf o < length (h_bufs h).
Proof. intros W O. destruct (W r o O) as (_ & _ & b & B & _). now apply nth_some_lt in B. Qed.

Section Add_each.
  Variables (roi : rdict) (c' : sconfig) (h0 : heap) (t x0 : nat).
  Hypothesis W0 : wf_heap h0.
  (* the arrays and objects that may change *)
  Variables (new_bufs new_objs : nat -> Prop).
  Hypothesis new_t : new_objs t.
  Hypothesis new_b : forall i, length (h_bufs h0) <= i -> new_bufs i.

  Lemma add_each_l : forall l h T (D : nat -> Prop),
    wf_heap h -> abs h t = Some T -> wf_spectra T -> s_cfg T = c' ->
    (exists ot, nth_error (h_objs h) t = Some ot /\ new_bufs (o_buf ot)) -> cfg_of h t = Some x0 ->
    kept D new_bufs new_objs h0 h -> D x0 ->
    Forall (fixable roi c' h0) l -> (forall r o, In r (map fst l) -> nth_error (h_objs h0) r = Some o -> ~ new_objs r /\ ~ new_bufs (o_buf o)) -> NoDup (cfgs_in h0 l) -> (forall i, In (Some i) (cfgs_in h0 l) -> ~ D i) ->
    exists h' T' parts, add_each true roi t l h = (h', None) /\ wf_heap h' /\ abs h' t = Some T' /\ wf_spectra T' /\ s_cfg T' = c' /\
      kept (fun i => In (Some i) (cfgs_in h0 l)) new_bufs new_objs h h' /\
      Forall (fun rn => recut roi h0 h' (fst rn)) l /\
      Forall2 (fixed_part roi h0) l parts /\
      (forall i, valid_idx (cfg_shape c') i -> aget (s_data T') i = (aget (s_data T) i + qsum (map (fun p => scaled_content p i) parts))%Qc) /\
      s_decays T' = (s_decays T + qsum (map snd l))%Qc /\ s_name T' = s_name T.
  Proof.
    induction l as [|[r n] l IH]; intros h T D W A WT CT (ot & Ot & Bt) Xt K Dx F NW N ND.
    - exists h, T, []. split; [reflexivity|]. split; [exact W|]. split; [exact A|]. split; [exact WT|]. split; [exact CT|].
      split; [apply kept_refl|]. split; [constructor|]. split; [constructor|]. split; [intros; cbn; ring|]. split; [cbn; ring|reflexivity].
    - inversion F as [|a b (s & As & Re & Dn & Cut) F']; subst a b. cbn [fst snd] in *. destruct (abs_cfg_of h0 r s As) as (x & X).
      assert (ND' : ~ D x) by (apply ND; cbn; left; exact X).
      pose proof (obj_of h0 r s As) as (o & O). assert (Xo : o_cfg o = x) by (unfold cfg_of in X; rewrite O in X; cbn in X; congruence).
      destruct (NW r o (or_introl eq_refl) O) as (Lr & Lb).
      assert (Ah : abs h r = Some s). { apply (kept_abs _ _ _ h0 h r o s K O); [exact Lr|now rewrite Xo|exact Lb|exact As]. }
      pose proof (kept_cfg_of _ _ _ _ _ _ _ K X) as Xh.
      destruct (copy_scaled_l roi r n h s x W Ah Re Dn Xh) as (h1 & s' & s2 & E1 & W1 & I1 & A1 & Ws2 & C2 & Sh2 & De2 & Ra2 & Na2 & Ct2 & X1 & Cx1 & K1 & o2 & O2 & B2).
      assert (Ax' : restrictable roi s') by exact (region_restrictable roi s s' Re I1).
      assert (Cs' : same_dims c' (s_cfg s')). { pose proof I1 as ([[_ Y] _] & Y2 & _). apply (fits_cut roi c' (s_cfg s)); [rewrite <- CT; apply WT|exact Y|exact Cut|exact Y2]. }
      assert (Ncx : x0 <> x) by (intros ->; exact (ND' Dx)). assert (Oc : o_cfg ot = x0) by (unfold cfg_of in Xt; rewrite Ot in Xt; cbn in Xt; congruence).
      assert (At1 : abs h1 t = Some T). { apply (kept_abs _ _ _ h h1 t ot T K1 Ot); [tauto|congruence|tauto|exact A]. }
      assert (Ot1 : nth_error (h_objs h1) t = Some ot) by (apply (k_objs _ _ _ _ _ K1); [tauto|exact Ot]).
      set (c := length (h_objs h)) in *.
      assert (Sh : ashape (s_data s2) = ashape (s_data T)). { destruct Ws2 as [_ Y]. destruct WT as [_ Y']. unfold consistent in *. rewrite Y, Y', C2, CT. exact (same_dims_shape _ _ Cs'). }
      assert (Ck : add_check T s2 = Ok tt).
      { destruct Ax' as (_ & (_ & _ & Y3 & Y4) & _). apply add_accepts; [|now rewrite C2|rewrite CT, C2; exact Cs'|exact Sh].
        rewrite CT, <- (same_dims_map _ _ Cs'). exact Y3. }
      assert (Es : snd (s_add s2 T) = None) by (unfold s_add; now rewrite Ck).
      destruct (s_add s2 T) as [T2 e] eqn:Ea. cbn in Es. subst e. pose proof (add_l T s2 T2 Ea) as (L1 & L2 & L3 & L4 & L5 & L6 & L7 & _).
      pose proof (add_call c t h1 s2 T W1 A1 At1) as G. rewrite Ea in G. pose proof G as (Ef & W2 & (T3 & A3 & M3) & N3). cbn [fst snd] in *.
      set (h2 := fst (h_add c t h1)) in *. assert (E2 : h_add c t h1 = (h2, None)) by (rewrite <- N3; apply surjective_pairing).
      pose proof (kept_effect false true t h1 _ _ T G At1 ot Ot1) as K2. cbn [fst] in K2. fold h2 in K2.
      assert (K2' : kept (fun i => In (Some i) (cfgs_in h0 ((r, n) :: l))) new_bufs new_objs h1 h2).
      { eapply kept_weaken; [| | |exact K2]; [intros i _ [Y _]; discriminate|intros i _ [_ ->]; exact Bt|intros i _ <-; exact new_t]. }
      assert (K1' : kept (fun i => In (Some i) (cfgs_in h0 ((r, n) :: l))) new_bufs new_objs h h1).
      { eapply kept_weaken; [| | |exact K1]; [intros i _ <-; left; exact X|intros i _ []|intros i _ []]. }
      pose proof (kept_trans _ _ _ _ _ _ K1' K2') as K12.
      assert (M3' := M3). destruct M3' as [(P1 & P2 & P3 & P4 & P5 & P6 & P7 & P8) Gd].
      assert (WT3 : wf_spectra T3). { apply (wf_same T2); [|exact M3]. destruct WT as [Y1 Y2]. unfold wf_spectra, consistent in *. rewrite L6, L2. auto. }
      destruct (IH h2 T3 (fun i => D i \/ i = x)) as (h' & T' & parts & E & W' & A' & WT' & CT' & K' & Cx & Fp & Ct & De & Na); clear IH.
      + exact W2.
      + exact A3.
      + exact WT3.
      + congruence.
      + destruct (Ef ot Ot1) as [_ _ (ot2 & Y1 & Y2 & _ & Y3) _ _ _ _ _ _]. exists ot2. split; [exact Y1|]. pose proof (k_blen _ _ _ _ _ K1). pose proof (k_blen _ _ _ _ _ K). destruct Y3 as [Y3|Y3]; [rewrite Y3; exact Bt|apply new_b; lia].
      + exact (kept_cfg_of _ _ _ _ _ _ _ K2 (kept_cfg_of _ _ _ _ _ _ _ K1 Xt)).
      + apply (kept_trans _ _ _ h0 h). { eapply kept_weaken; [| | |exact K]; auto. }
        apply (kept_trans _ _ _ h h1). { eapply kept_weaken; [| | |exact K1]; [intros i _ <-; auto|intros i _ []|intros i _ []]. }
        eapply kept_weaken; [| | |exact K2]; [intros i _ [Y _]; discriminate|intros i _ [_ ->]; exact Bt|intros i _ <-; exact new_t].
      + auto.
      + exact F'.
      + intros r' o' I'. apply NW. now right.
      + inversion N; assumption.
      + intros i Ii [Y|Y]; [exact (ND i (or_intror Ii) Y)|]. subst i. inversion N as [|y z Y1 Y2]; subst. apply Y1. cbn [fst]. rewrite X. exact Ii.
      + assert (KK : kept (fun i => In (Some i) (cfgs_in h0 ((r, n) :: l))) new_bufs new_objs h2 h').
        { eapply kept_weaken; [| | |exact K']; [intros i _ Y; right; exact Y|auto|auto]. }
        assert (Cx2 : nth_error (h_cfgs h2) x = Some (s_cfg s')) by (apply (k_cfgs _ _ _ _ _ K2); [intros [Y _]; discriminate|exact Cx1]).
        assert (Nx : ~ In (Some x) (cfgs_in h0 l)). { inversion N as [|y z Y1 Y2]; subst. cbn [fst] in Y1. now rewrite X in Y1. }
        destruct I1 as (_ & Cu & st & Fb & Bl).
        exists h', T', ((s, n, st) :: parts). split. { cbn [add_each]. fold c. rewrite E1. unfold then_ at 2. cbn [snd fst]. rewrite E2. unfold then_. cbn [snd fst]. exact E. }
        split; [exact W'|]. split; [exact A'|]. split; [exact WT'|]. split; [exact CT'|]. split; [exact (kept_trans _ _ _ _ _ _ K12 KK)|].
        split. { constructor; [|exact Cx]. exists s, x, (s_cfg s'). split; [exact As|]. split; [exact X|]. split; [exact Cu|]. now apply (k_cfgs _ _ _ _ _ K'). }
        split. { constructor; [|exact Fp]. split; [exact As|]. split; [reflexivity|exact Fb]. }
        assert (ShT : ashape (s_data T) = cfg_shape c'). { destruct WT as [_ Y]. unfold consistent in Y. now rewrite Y, CT. }
        split; [|split; [|congruence]].
        * intros i V. rewrite Ct by exact V. rewrite Gd by (rewrite P8, L2, ShT; exact V). rewrite L3. cbn [map qsum fold_right]. fold (qsum (map (fun p => scaled_content p i) parts)).
          destruct Bl as (Bl1 & Bl2 & _). assert (V' : valid_idx (ashape (s_data s')) i) by (rewrite Bl1, (same_dims_shape _ _ Cs'); exact V).
          rewrite (Ct2 i V'). destruct (Bl2 i V') as [_ ->]. cbn [scaled_content]. ring.
        * rewrite De, P4, L4, De2. cbn [map snd qsum fold_right]. unfold qsum. ring.
  Qed.
End Add_each.

(** ** The ROI parameters and the check of the bounds *)
Lemma roi_pars_ok roi c : NoDup (map (fun y => get_dim (fst y)) c) -> Forall (fun y => typed_name (fst y)) c ->
  (forall d lh, In (d, lh) roi -> exists v p, In (v, p) c /\ get_dim v = d) ->
  exists ps, roi_pars roi c = Ok ps /\ Forall2 (fun x v => get_dim v = fst x /\ In v (map fst c)) roi ps.
Proof.
  intros N T. induction roi as [|[d lh] roi IH]; intro H; [exists []; split; [reflexivity|constructor]|].
  destruct IH as (ps & E & F). { intros d' lh' I. apply (H d' lh'). now right. }
  destruct (H d lh (or_introl eq_refl)) as (v & p & I & D). cbn [roi_pars]. rewrite <- D. rewrite (dim_type_of c v p N I). cbn [rbind]. rewrite E. cbn [rbind].
  eexists. split; [reflexivity|]. rewrite Forall_forall in T. rewrite <- (typed_decompose v (T _ I)). constructor; [|exact F]. cbn. split; [reflexivity|]. now apply (in_map fst) in I.
Qed.
Lemma check_spectra_ok roi c : NoDup (map (fun y => get_dim (fst y)) c) -> Forall (fun y => typed_name (fst y)) c ->
  (forall d lo hi, In (d, (lo, hi)) roi -> exists v p, In (v, p) c /\ get_dim v = d /\ sp_low p = lo /\ sp_high p = hi) -> check_spectra roi c = None.
Proof.
  intros N T. induction roi as [|[d [lo hi]] roi IH]; intro H; [reflexivity|]. cbn [check_spectra].
  destruct (H d lo hi (or_introl eq_refl)) as (v & p & I & D & L & U). rewrite <- D. rewrite (dim_type_of c v p N I). cbn [rbind].
  rewrite Forall_forall in T. rewrite <- (typed_decompose v (T _ I)). unfold get_par. rewrite (proj2 (dlookup_ok v c p) (In_dget v p c (names_nodup _ N) I)).
  rewrite L, U, !isclose_refl. cbn [negb]. apply IH. intros d' lo' hi' I'. apply H. now right.
Qed.
Lemma restrictable_pars roi s : restrictable roi s -> exists ps, roi_pars roi (s_cfg s) = Ok ps /\ Forall2 (fun x v => get_dim v = fst x /\ In v (map fst (s_cfg s))) roi ps.
Proof.
  intros (_ & (_ & _ & N & T) & (_ & S)). apply roi_pars_ok; [exact N|exact T|]. intros d [lo hi] I. destruct (S d lo hi I) as (_ & v & p & V & D & _). eauto.
Qed.
Lemma region_checked roi s s' : restrictable roi s -> in_region roi s s' -> check_spectra roi (s_cfg s') = None.
Proof.
  intros R I. pose proof (region_restrictable roi s s' R I) as (_ & (_ & _ & N' & T') & _). destruct R as (_ & (_ & _ & N & T) & (NR & S)). destruct I as (_ & K & _).
  apply check_spectra_ok; [exact N'|exact T'|]. intros d lo hi I. destruct (S d lo hi I) as (_ & v & p & V & D & _). destruct (cut_in_r roi _ _ v p K V) as (p' & V' & A & B & _).
  unfold roi_low, roi_high in A, B. rewrite D, (In_dget d (lo, hi) roi) in A, B by assumption. exists v, p'. auto.
Qed.
Lemma same_dims_refl c : same_dims c c.
Proof. induction c; constructor; auto. Qed.

(** ** make_fixed_background *)
Lemma rename_l nm t h s o : wf_heap h -> abs h t = Some s -> nth_error (h_objs h) t = Some o ->
  exists h' s', h_rename nm t h = (h', None) /\ wf_heap h' /\ abs h' t = Some s' /\ s_name s' = nm /\ s_cfg s' = s_cfg s /\ s_data s' = s_data s /\ s_decays s' = s_decays s /\
    h_cfgs h' = h_cfgs h /\ nth_error (h_objs h') t = Some (o_with_name o nm) /\ kept (fun _ => False) (fun _ => False) (eq t) h h'.
Proof.
  intros W A O. unfold h_rename. match goal with |- context [on_obj h t ?k] => destruct (on_obj_some h t s k A) as (o' & O' & V & ->) end. assert (o' = o) as -> by congruence.
  destruct (abs_split h t s A) as (o' & c & b & d & O2 & C & B & D & ->). assert (o' = o) as -> by congruence.
  assert (L : t < length (h_objs h)) by (now apply nth_some_lt in O). eexists. eexists. split; [reflexivity|].
  set (h' := set_obj h t (o_with_name o nm)). assert (On : nth_error (h_objs h') t = Some (o_with_name o nm)) by (cbn; now apply nth_lset_same).
  split.
  { intros r o1 H. destruct (Nat.eq_dec r t) as [->|N].
    - assert (o1 = o_with_name o nm) as -> by congruence. exact (W t o O).
    - cbn in H. rewrite nth_lset_other in H by exact N. exact (W r o1 H). }
  split; [apply abs_join; [exact On|exact C|exact B|exact D]|]. cbn. split; [reflexivity|]. split; [reflexivity|]. split; [reflexivity|]. split; [reflexivity|]. split; [reflexivity|]. split; [exact On|].
  constructor; auto.
  - intros r o1 N H. cbn. rewrite nth_lset_other; [exact H|congruence].
  - intros r o1 H. destruct (Nat.eq_dec r t) as [->|N].
    + exists (o_with_name o nm). split; [exact On|]. cbn. congruence.
    + exists o1. cbn. rewrite nth_lset_other by exact N. auto.
  - cbn. rewrite lset_length. lia.
Qed.
Lemma alike_sym roi c c' : alike roi c c' -> alike roi c' c.
Proof. induction 1 as [|x y c c' (A & B & C & D) H IH]; constructor; auto. Qed.
Lemma alike_trans roi c c1 c2 : alike roi c c1 -> alike roi c1 c2 -> alike roi c c2.
Proof.
  intro H. revert c2. induction H as [|x y c c' (A & B & C & D) H IH]; intros c2 K; inversion K as [|y' z c3 c4 (A' & B' & C' & D') K']; subst; constructor; [|now apply IH].
  repeat split; congruence.
Qed.
Lemma alike_fits roi c c' c1 : alike roi c c1 -> cut_axes roi c c' -> fits_region roi c' c1.
Proof.
  intro H. revert c'. induction H as [|x y c c1 (A & B & C & D) H IH]; intros c' K; inversion K as [|y' z c3 c4 (A' & B' & C' & D') K']; subst; constructor; [|now apply IH].
  repeat split; congruence.
Qed.
Lemma kept_cfg C B R h h' x c : kept C B R h h' -> ~ C x -> nth_error (h_cfgs h) x = Some c -> nth_error (h_cfgs h') x = Some c.
Proof. intros K. apply (k_cfgs _ _ _ _ _ K). Qed.
Lemma fixed_l z c0 r n l : wf_heap (z_heap z) -> Forall (fixes (the_roi z) c0 (z_heap z)) ((r, n) :: l) -> NoDup (cfgs_in (z_heap z) ((r, n) :: l)) ->
  exists h' T ps parts, let t := length (h_objs (z_heap z)) in
    make_fixed_background ((r, n) :: l) true z = (z_with_fixed (z_with_heap z h') (Some (t, ps)), None) /\ wf_heap h' /\
    abs h' t = Some T /\ restrictable (the_roi z) T /\ fits_region (the_roi z) (s_cfg T) c0 /\ roi_pars (the_roi z) (s_cfg T) = Ok ps /\
    cfg_of h' t = cfg_of (z_heap z) r /\
    kept (fun i => In (Some i) (cfgs_in (z_heap z) ((r, n) :: l))) (fun _ => False) (fun _ => False) (z_heap z) h' /\
    Forall (fun rn => recut (the_roi z) (z_heap z) h' (fst rn)) ((r, n) :: l) /\
    Forall2 (fixed_part (the_roi z) (z_heap z)) ((r, n) :: l) parts /\
    (forall i, valid_idx (cfg_shape (s_cfg T)) i -> aget (s_data T) i = qsum (map (fun p => scaled_content p i) parts)) /\
    s_decays T = qsum (map snd ((r, n) :: l)) /\ s_name T = "Fixed Background"%string /\
    (exists s1, abs (z_heap z) r = Some s1 /\ cut_axes (the_roi z) (s_cfg s1) (s_cfg T)).
Proof.
  set (roi := the_roi z). set (h0 := z_heap z). intros W F N. set (t := length (h_objs h0)).
  inversion F as [|a b (s1 & A1 & R1 & D1 & L1) F']; subst a b. cbn [fst snd] in *. destruct (abs_cfg_of h0 r s1 A1) as (x & X).
  destruct (copy_scaled_l roi r n h0 s1 x W A1 R1 D1 X) as (h1 & s' & s2 & E1 & W1 & I1 & A2 & Ws2 & C2 & Sh2 & De2 & Ra2 & Na2 & Ct2 & X1 & Cx1 & K1 & o2 & O2 & B2). fold t in A2, X1, O2.
  pose proof (region_restrictable roi s1 s' R1 I1) as R'.
  destruct (rename_l "Fixed Background" t h1 s2 o2 W1 A2 O2) as (h2 & T0 & E2 & W2 & A3 & Q1 & Q2 & Q3 & Q4 & Q5 & Q6 & K2).
  set (c' := s_cfg s').
  assert (CT0 : s_cfg T0 = c') by (unfold c'; congruence).
  assert (WT0 : wf_spectra T0). { destruct Ws2 as [Y1 Y2]. unfold wf_spectra, consistent in *. rewrite Q2, Q3. auto. }
  assert (Kx : kept (eq x) (fun i => length (h_bufs h0) <= i) (fun r => length (h_objs h0) <= r) h0 h2).
  { apply (kept_trans _ _ _ h0 h1). { eapply kept_weaken; [| | |exact K1]; [auto|intros i _ []|intros i _ []]. }
    eapply kept_weaken; [| | |exact K2]; [intros i _ []|intros i _ []|]. intros i _ <-. unfold t. lia. }
  assert (Nx : ~ In (Some x) (cfgs_in h0 l)). { inversion N as [|y y' Y1 Y2]; subst. cbn [fst] in Y1. now rewrite X in Y1. }
  destruct (add_each_l roi c' h0 t x (fun i => length (h_bufs h0) <= i) (fun r => length (h_objs h0) <= r) (le_n _) (fun i Y => Y) l h2 T0 (eq x)) as (h3 & T & parts & E & W' & A' & WT & CT & K' & Cx & Fp & Ct & De & Na).
  - exact W2.
  - exact A3.
  - exact WT0.
  - exact CT0.
  - exists (o_with_name o2 "Fixed Background"). split; [exact Q6|exact B2].
  - exact (kept_cfg_of _ _ _ _ _ _ _ K2 X1).
  - exact Kx.
  - reflexivity.
  - eapply Forall_impl; [|exact F']. intros rn (s & Y1 & Y2 & Y3 & Y4). exists s. split; [exact Y1|]. split; [exact Y2|]. split; [exact Y3|].
    apply (alike_fits roi (s_cfg s1)); [exact (alike_trans _ _ _ _ (alike_sym _ _ _ L1) Y4)|]. unfold c'. apply I1.
  - intros r' o' I' O'. pose proof (wf_buf h0 r' o' W O'). apply nth_some_lt in O'. lia.
  - now inversion N.
  - intros i Ii <-. contradiction.
  - destruct I1 as (_ & Cu & st & Fb & Bl).
    assert (RT : restrictable roi T). { destruct R' as (_ & Y2 & Y3). unfold restrictable. rewrite CT. auto. }
    destruct (restrictable_pars roi T RT) as (ps & Eps & _).
    assert (KK : kept (fun i => In (Some i) (cfgs_in h0 ((r, n) :: l))) (fun i => length (h_bufs h0) <= i) (fun r => length (h_objs h0) <= r) h0 h3).
    { apply (kept_trans _ _ _ h0 h2). { eapply kept_weaken; [| | |exact Kx]; [intros i _ <-; left; exact X|auto|auto]. }
      eapply kept_weaken; [| | |exact K']; [intros i _ Y; right; exact Y|auto|auto]. }
    exists h3, T, ps, ((s1, n, st) :: parts). split.
    { unfold make_fixed_background. fold roi h0. cbn zeta. fold t. rewrite E1. unfold then_ at 2. cbn [snd fst]. rewrite E2. unfold then_. cbn [snd fst]. rewrite E.
      unfold pars_of. rewrite A', Eps. reflexivity. }
    split; [exact W'|]. split; [exact A'|]. split; [exact RT|]. split. { rewrite CT. apply (alike_fits roi (s_cfg s1)); [exact (alike_sym _ _ _ L1)|exact Cu]. }
    split; [exact Eps|]. split. { rewrite X. exact (kept_cfg_of _ _ _ _ _ _ _ K' (kept_cfg_of _ _ _ _ _ _ _ K2 X1)). }
    split. { eapply kept_weaken; [| | |exact KK]; [auto|intros i L Y; cbv beta in *; lia|intros i L Y; cbv beta in *; lia]. }
    split. { constructor; [|exact Cx]. exists s1, x, c'. cbn [fst]. split; [exact A1|]. split; [exact X|]. split; [exact Cu|]. apply (kept_cfg _ _ _ _ _ _ _ K'); [exact Nx|]. rewrite Q5. exact Cx1. }
    split. { constructor; [|exact Fp]. split; [exact A1|]. split; [reflexivity|exact Fb]. }
    split; [|split; [|split]].
    + intros i V. rewrite CT in V. rewrite (Ct i V), Q3. destruct Bl as (Bl1 & Bl2 & _). assert (V' : valid_idx (ashape (s_data s')) i) by (rewrite Bl1; exact V).
      rewrite (Ct2 i V'). destruct (Bl2 i V') as [_ ->]. reflexivity.
    + rewrite De, Q4, De2. reflexivity.
    + congruence.
    + exists s1. split; [exact A1|]. now rewrite CT.
Qed.

(** ** set_data, set_signal, set_floating_backgrounds, shrink_all *)
Lemma same_here C R h h' r s : kept C (fun _ => False) R h h' -> abs h r = Some s -> ~ R r -> (forall x, cfg_of h r = Some x -> ~ C x) -> abs h' r = Some s.
Proof.
  intros K A NR NC. destruct (obj_of h r s A) as (o & O). apply (kept_abs _ _ _ h h' r o s K O NR); [|tauto|exact A]. apply NC. unfold cfg_of. now rewrite O.
Qed.
Lemma kept_refs C B R h h' r s : kept C B R h h' -> abs h r = Some s -> cfg_of h' r = cfg_of h r.
Proof. intros K A. destruct (abs_cfg_of h r s A) as (x & X). rewrite X. exact (kept_cfg_of _ _ _ _ _ _ _ K X). Qed.
Lemma region_pars roi s s' : restrictable roi s -> in_region roi s s' -> exists ps, roi_pars roi (s_cfg s') = Ok ps /\ roi_axes roi (s_cfg s') ps.
Proof. intros R I. exact (restrictable_pars roi s' (region_restrictable roi s s' R I)). Qed.
Lemma set_one_l checks put old r z s x : wf_heap (z_heap z) -> abs (z_heap z) r = Some s -> restrictable (the_roi z) s -> cfg_of (z_heap z) r = Some x ->
  exists h' s' ps, set_one checks true put old r z = (put (z_with_heap z h') (Some (r, ps)), None) /\ wf_heap h' /\ abs h' r = Some s' /\ in_region (the_roi z) s s' /\
    roi_axes (the_roi z) (s_cfg s') ps /\ kept (eq x) (fun _ => False) (eq r) (z_heap z) h'.
Proof.
  intros W A R X. destruct (shrink_obj_l (the_roi z) r (z_heap z) s x W A R X) as (h' & s' & E & W' & A' & I & K).
  destruct (region_pars _ s s' R I) as (ps & P & F). exists h', s', ps. split; [|auto]. unfold set_one. rewrite E. unfold pars_of. now rewrite A', P.
Qed.
Definition cfgs_of (h : heap) (l : list nat) : list (option nat) := map (cfg_of h) l.
Lemma kept_cfgs_of C B R h h' roi l : kept C B R h h' -> Forall (can roi h) l -> cfgs_of h' l = cfgs_of h l.
Proof.
  intros K F. unfold cfgs_of. apply map_ext_in. intros r I. rewrite Forall_forall in F. destruct (F r I) as (s & A & _). exact (kept_refs _ _ _ _ _ _ _ K A).
Qed.
Lemma others_can C R roi h h' l : kept C (fun _ => False) R h h' -> Forall (can roi h) l -> (forall r, In r l -> ~ R r) -> (forall x, C x -> ~ In (Some x) (cfgs_of h l)) ->
  Forall (fun r => abs h' r = abs h r) l /\ Forall (can roi h') l.
Proof.
  intros K F NR NC. rewrite !Forall_forall in *. assert (G : forall r, In r l -> abs h' r = abs h r).
  { intros r I. destruct (F r I) as (s & A & _). rewrite A. apply (same_here C R h h' r s K A (NR r I)). intros x X Cx. apply (NC x Cx). rewrite <- X. now apply in_map. }
  split; [exact G|]. intros r I. destruct (F r I) as (s & A & Re). exists s. split; [now rewrite G|exact Re].
Qed.
Lemma own_step h r l x : NoDup (cfgs_of h (r :: l)) -> cfg_of h r = Some x -> ~ In r l /\ ~ In (Some x) (cfgs_of h l) /\ NoDup (cfgs_of h l).
Proof.
  intros N X. inversion N as [|a b N1 N2]; subst. rewrite X in N1. split; [|auto]. intro I. apply N1. rewrite <- X. now apply in_map.
Qed.
Lemma shrink_each_l roi : forall l h, wf_heap h -> Forall (can roi h) l -> NoDup (cfgs_of h l) ->
  exists h', shrink_each roi l h = (h', None) /\ wf_heap h' /\ Forall (restricted roi h h') l /\
    kept (fun i => In (Some i) (cfgs_of h l)) (fun _ => False) (fun r => In r l) h h'.
Proof.
  induction l as [|r l IH]; intros h W F N; [exists h; split; [reflexivity|split; [exact W|split; [constructor|apply kept_refl]]]|].
  inversion F as [|a b (s & A & Re) F']; subst. destruct (abs_cfg_of h r s A) as (x & X). destruct (own_step h r l x N X) as (N1 & N2 & N3).
  destruct (shrink_obj_l roi r h s x W A Re X) as (h1 & s' & E & W1 & A1 & I & K).
  destruct (others_can _ _ roi h h1 l K F') as (G1 & G2). { intros r' I' <-. contradiction. } { intros y <-. exact N2. }
  pose proof (kept_cfgs_of _ _ _ _ _ roi l K F') as Q.
  destruct (IH h1 W1 G2) as (h2 & E2 & W2 & G3 & K2). { now rewrite Q. }
  exists h2. split; [cbn [shrink_each]; rewrite E; unfold then_; exact E2|]. split; [exact W2|]. split.
  - constructor.
    + exists s, s'. split; [exact A|]. split; [|exact I]. apply (same_here _ _ h1 h2 r s' K2 A1 N1). intros y Y. rewrite Q.
      rewrite (kept_refs _ _ _ _ _ _ _ K A), X in Y. injection Y as <-. exact N2.
    + rewrite Forall_forall in *. intros r' I'. destruct (G3 r' I') as (u & u' & Y1 & Y2 & Y3). exists u, u'. rewrite G1 in Y1 by exact I'. auto.
  - apply (kept_trans _ _ _ h h1).
    + eapply kept_weaken; [| | |exact K]; [intros i _ <-; left; exact X|auto|intros i _ <-; now left].
    + eapply kept_weaken; [| | |exact K2]; [|auto|intros i _ Y; now right]. intros i _ Y. right. now rewrite Q in Y.
Qed.
Lemma float_each_l config roi : forall l h, wf_heap h -> Forall (can roi h) l -> NoDup (cfgs_of h l) -> (forall r, In r l -> config r = None) ->
  exists h' pss, float_each config true roi l h = (h', Ok pss) /\ wf_heap h' /\ Forall (restricted roi h h') l /\
    Forall2 (fun r ps => exists s', abs h' r = Some s' /\ roi_axes roi (s_cfg s') ps) l pss /\
    kept (fun i => In (Some i) (cfgs_of h l)) (fun _ => False) (fun r => In r l) h h'.
Proof.
  induction l as [|r l IH]; intros h W F N Hc; [exists h, []; split; [reflexivity|split; [exact W|split; [constructor|split; [constructor|apply kept_refl]]]]|].
  inversion F as [|a b (s & A & Re) F']; subst. destruct (abs_cfg_of h r s A) as (x & X). destruct (own_step h r l x N X) as (N1 & N2 & N3).
  destruct (shrink_obj_l roi r h s x W A Re X) as (h1 & s' & E & W1 & A1 & I & K). destruct (region_pars _ s s' Re I) as (ps & P & Fp).
  destruct (others_can _ _ roi h h1 l K F') as (G1 & G2). { intros r' I' <-. contradiction. } { intros y <-. exact N2. }
  pose proof (kept_cfgs_of _ _ _ _ _ roi l K F') as Q.
  destruct (IH h1 W1 G2) as (h2 & pss & E2 & W2 & G3 & G4 & K2). { now rewrite Q. } { intros r' I'. apply Hc. now right. }
  assert (A2 : abs h2 r = Some s').
  { apply (same_here _ _ h1 h2 r s' K2 A1 N1). intros y Y. rewrite Q. rewrite (kept_refs _ _ _ _ _ _ _ K A), X in Y. injection Y as <-. exact N2. }
  exists h2, (ps :: pss). split. { cbn [float_each]. rewrite (Hc r (or_introl eq_refl)), E. unfold pars_of. rewrite A1, P, E2. reflexivity. }
  split; [exact W2|]. split; [|split; [|]].
  - constructor; [now exists s, s'|]. rewrite Forall_forall in *. intros r' I'. destruct (G3 r' I') as (u & u' & Y1 & Y2 & Y3). exists u, u'. rewrite G1 in Y1 by exact I'. auto.
  - constructor; [|exact G4]. exists s'. auto.
  - apply (kept_trans _ _ _ h h1).
    + eapply kept_weaken; [| | |exact K]; [intros i _ <-; left; exact X|auto|intros i _ <-; now left].
    + eapply kept_weaken; [| | |exact K2]; [|auto|intros i _ Y; now right]. intros i _ Y. right. now rewrite Q in Y.
Qed.

(** ** The constructor *)
Lemma region_again roi h0 h1 h2 r : restricted roi h0 h1 r -> restricted roi h1 h2 r -> restricted roi h0 h2 r.
Proof.
  intros (s & s1 & A & A1 & I1) (s1' & s2 & A1' & A2 & I2). assert (s1' = s1) as -> by congruence. exists s, s2. split; [exact A|]. split; [exact A2|].
  apply (region_same roi s s1); [exact I1|exact (region_twice roi s s1 s2 I1 I2)|apply I2].
Qed.
Lemma self_checked roi s : restrictable roi s -> cut_axes roi (s_cfg s) (s_cfg s) -> check_spectra roi (s_cfg s) = None.
Proof.
  intros (W & (_ & _ & N & T) & (NR & S)) K. apply check_spectra_ok; [exact N|exact T|]. intros d lo hi I. destruct (S d lo hi I) as (_ & v & p & V & D & _).
  destruct (cut_in_r roi _ _ v p K V) as (p' & V' & A & B & _). unfold roi_low, roi_high in A, B. rewrite D, (In_dget d (lo, hi) roi) in A, B by assumption. exists v, p'. auto.
Qed.
Lemma disjoint_app {A} (a b : list A) : NoDup (a ++ b) -> forall y, In y a -> ~ In y b.
Proof.
  induction a as [|x a IH]; intros N y I J; [destruct I|]. cbn in N. inversion N as [|u v N1 N2]; subst. destruct I as [->|I]; [apply N1, in_or_app; now right|exact (IH N2 y I J)].
Qed.
Lemma nodup_app_l {A} (a b : list A) : NoDup (a ++ b) -> NoDup a.
Proof.
  induction a as [|x a IH]; intro N; [constructor|]. cbn in N. inversion N as [|u v N1 N2]; subst. constructor; [|now apply IH]. intro I. apply N1, in_or_app. now left.
Qed.
Lemma nodup_app_r {A} (a b : list A) : NoDup (a ++ b) -> NoDup b.
Proof. induction a as [|x a IH]; intro N; [exact N|]. cbn in N. inversion N; subst. now apply IH. Qed.
Lemma disjoint_refs h g l : NoDup (cfgs_of h (g ++ l)) -> (forall r, In r l -> ~ In r g) /\ (forall x, In (Some x) (cfgs_of h g) -> ~ In (Some x) (cfgs_of h l)).
Proof.
  unfold cfgs_of. rewrite map_app. intro N. split.
  - intros r I J. apply (disjoint_app _ _ N (cfg_of h r)); now apply in_map.
  - intros x I. exact (disjoint_app _ _ N _ I).
Qed.
Lemma restricted_can roi h h' l : Forall (can roi h) l -> Forall (restricted roi h h') l -> Forall (can roi h') l.
Proof.
  rewrite !Forall_forall. intros F G r I. destruct (F r I) as (s & A & R), (G r I) as (s1 & s' & A1 & A' & Re). assert (s1 = s) as -> by congruence.
  exists s'. split; [exact A'|exact (region_restrictable roi s s' R Re)].
Qed.
(** A group of spectra is restricted, the others stay as they are. *)
Lemma stage roi h h' g l : kept (fun i => In (Some i) (cfgs_of h g)) (fun _ => False) (fun r => In r g) h h' -> Forall (restricted roi h h') g ->
  Forall (can roi h) (g ++ l) -> NoDup (cfgs_of h (g ++ l)) -> Forall (can roi h') (g ++ l) /\ cfgs_of h' (g ++ l) = cfgs_of h (g ++ l) /\ forall r, In r l -> abs h' r = abs h r.
Proof.
  intros K G F N. pose proof (kept_cfgs_of _ _ _ _ _ roi _ K F) as Q. apply Forall_app in F as [F1 F2]. destruct (disjoint_refs h g l N) as [D1 D2].
  destruct (others_can _ _ roi h h' l K F2) as (G1 & G2); [exact D1|exact D2|]. split; [|split; [exact Q|]].
  - apply Forall_app. split; [exact (restricted_can roi h h' g F1 G)|exact G2].
  - now apply Forall_forall.
Qed.
Lemma given_one_l checks put old (x : option nat) z : wf_heap (z_heap z) -> Forall (can (the_roi z) (z_heap z)) (ol x) ->
  exists h' y, if_given x (fun r => set_one checks true put old r) z = (match x with Some r => put (z_with_heap z h') (Some (r, y)) | None => z_with_heap z h' end, None) /\
    wf_heap h' /\ kept (fun i => In (Some i) (cfgs_of (z_heap z) (ol x))) (fun _ => False) (fun r => In r (ol x)) (z_heap z) h' /\
    Forall (restricted (the_roi z) (z_heap z) h') (ol x) /\ Forall (fun r => exists s', abs h' r = Some s' /\ roi_axes (the_roi z) (s_cfg s') y) (ol x).
Proof.
  intros W F. destruct x as [r|]; cbn [if_given ol] in *.
  - inversion F as [|a b (s & A & R) _]; subst. destruct (abs_cfg_of _ r s A) as (x & X). destruct (set_one_l checks put old r z s x W A R X) as (h' & s' & ps & E & W' & A' & I & P & K).
    exists h', ps. split; [exact E|]. split; [exact W'|]. split; [|split].
    + eapply kept_weaken; [| | |exact K]; [intros i _ <-; left; exact X|auto|intros i _ <-; now left].
    + constructor; [now exists s, s'|constructor].
    + constructor; [now exists s'|constructor].
  - exists (z_heap z), []. split; [destruct z; reflexivity|]. split; [exact W|]. split; [apply kept_refl|]. split; constructor.
Qed.

Lemma chain_ok x z f : x = (z, None) -> chain x f = f z.
Proof. now intros ->. Qed.
Lemma own_perm h (a b : list nat) : Permutation a b -> NoDup (cfgs_of h a) -> NoDup (cfgs_of h b).
Proof. intros P. apply Permutation_NoDup. unfold cfgs_of. now apply Permutation_map. Qed.
Lemma Forall_perm {A} (P : A -> Prop) a b : Permutation a b -> Forall P a -> Forall P b.
Proof. intros Q. rewrite !Forall_forall. intros H x I. apply H. apply (Permutation_in x (Permutation_sym Q) I). Qed.
Lemma same_axes_pars roi c ps : forall c', c' = c -> roi_axes roi c ps -> roi_axes roi c' ps.
Proof. now intros ? ->. Qed.
Lemma total_same roi h l T T' : is_total roi h l T -> same_spectra T' T -> is_total roi h l T'.
Proof.
  intros (parts & F & C & D & N & W & X) M. pose proof M as [(M1 & M2 & M3 & M4 & M5 & M6 & M7 & M8) G]. pose proof (wf_same T T' W M) as W'.
  exists parts. rewrite M3, M4, M1. split; [exact F|]. split; [|auto]. intros i V. rewrite G; [now apply C|]. destruct W' as [_ S]. unfold consistent in S. now rewrite S, M3.
Qed.

Lemma Forall2_in {A B} (P Q : A -> B -> Prop) l l' : Forall2 P l l' -> (forall a b, In a l -> P a b -> Q a b) -> Forall2 Q l l'.
Proof. induction 1 as [|a b l l' H F IH]; intro G; constructor; [apply G; [now left|exact H]|apply IH; intros; apply G; [now right|assumption]]. Qed.
Lemma Forall2_len {A B} (P : A -> B -> Prop) l l' : Forall2 P l l' -> length l' = length l.
Proof. induction 1; cbn; congruence. Qed.
Section Constructor.
  Variables (config : nat -> out) (roi : rdict) (given : rgiven) (h0 : heap) (data : option nat) (fixed : list (nat * Qc)) (floating : list nat) (signal : option nat) (c0 : sconfig).
  Hypothesis W0 : wf_heap h0.
  Hypothesis roi_ok : snd (check_roi None given) = Ok roi.
  Notation A := (ol data).
  Notation X := (map fst fixed).
  Notation S := (ol signal).
  Hypothesis own : NoDup (cfgs_of h0 (A ++ X ++ floating ++ S)).
  Hypothesis cans : Forall (can roi h0) (A ++ X ++ floating ++ S).
  Hypothesis fixeds : Forall (fixes roi c0 h0) fixed.
  Hypothesis configs : forall r, In r floating -> config r = None.

  (** After each step: the attributes, and the spectra that have been restricted. *)
  Lemma data_step : exists h1 y, if_given data (fun r => set_data r true) (FitSet h0 (Some roi) None None None None) =
      (FitSet h1 (Some roi) (option_map (fun r => (r, y)) data) None None None, None) /\ wf_heap h1 /\
      Forall (can roi h1) (A ++ X ++ floating ++ S) /\ cfgs_of h1 (A ++ X ++ floating ++ S) = cfgs_of h0 (A ++ X ++ floating ++ S) /\
      Forall (restricted roi h0 h1) A /\ Forall (fun r => exists s', abs h1 r = Some s' /\ roi_axes roi (s_cfg s') y) A /\
      (forall r, In r (X ++ floating ++ S) -> abs h1 r = abs h0 r) /\ length (h_objs h0) <= length (h_objs h1).
  Proof.
    pose proof cans as C. apply Forall_app in C as [C1 C2].
    destruct (given_one_l true z_with_data (fun z => old_pars (z_data z)) data (FitSet h0 (Some roi) None None None None) W0 C1) as (h1 & y & E & W1 & K & R & P). cbn [z_heap the_roi z_roi] in *.
    destruct (stage roi h0 h1 A (X ++ floating ++ S) K R cans own) as (G1 & G2 & G3).
    exists h1, y. split; [|pose proof (k_len _ _ _ _ _ K); auto 10]. unfold set_data. cbn in E |- *. rewrite E. destruct data; reflexivity.
  Qed.

  Definition fixed_made (h : heap) (fx : option (nat * list string)) : Prop :=
    match fixed with
    | [] => fx = None
    | _ => exists t ps T, fx = Some (t, ps) /\ length (h_objs h0) <= t /\ abs h t = Some T /\ is_total roi h0 fixed T /\ roi_axes roi (s_cfg T) ps /\
             cut_axes roi (s_cfg T) (s_cfg T) /\ restrictable roi T
    end.
  Lemma fixed_step h1 dt : wf_heap h1 -> Forall (can roi h1) (A ++ X ++ floating ++ S) -> cfgs_of h1 (A ++ X ++ floating ++ S) = cfgs_of h0 (A ++ X ++ floating ++ S) ->
    (forall r, In r X -> abs h1 r = abs h0 r) -> length (h_objs h0) <= length (h_objs h1) ->
    exists h2 fx, (match fixed with [] => fun z => (z, None) | l => make_fixed_background l true end) (FitSet h1 (Some roi) dt None None None) =
      (FitSet h2 (Some roi) dt fx None None, None) /\ wf_heap h2 /\
      Forall (can roi h2) (floating ++ A ++ S ++ opt_ref fx) /\ NoDup (cfgs_of h2 (floating ++ A ++ S ++ opt_ref fx)) /\
      (forall r, In r (A ++ floating ++ S) -> abs h2 r = abs h1 r) /\ fixed_made h2 fx.
  Proof.
    intros W1 C1 Q1 Ab Len. unfold fixed_made. pose proof own as own1. rewrite <- Q1 in own1. destruct fixed as [|[r n] l] eqn:Fx.
    { exists h1, None. split; [reflexivity|]. split; [exact W1|]. cbn [map app opt_ref] in *.
      assert (P : Permutation (A ++ floating ++ S) (floating ++ A ++ S ++ [])).
      { rewrite app_nil_r, !app_assoc. apply Permutation_app_tail, Permutation_app_comm. }
      split; [exact (Forall_perm _ _ _ P C1)|]. split; [exact (own_perm _ _ _ P own1)|]. auto. }
    rewrite <- Fx in *.
    assert (P1 : Permutation (A ++ X ++ floating ++ S) (X ++ A ++ floating ++ S)) by (rewrite !app_assoc; do 2 apply Permutation_app_tail; apply Permutation_app_comm).
    pose proof (own_perm _ _ _ P1 own1) as own2. pose proof (Forall_perm _ _ _ P1 C1) as C2. apply Forall_app in C2 as [CX CO].
    assert (Fi : Forall (fixes roi c0 h1) ((r, n) :: l)).
    { rewrite <- Fx, Forall_forall. intros rn I. rewrite Forall_forall in fixeds. destruct (fixeds rn I) as (s & Y1 & Y2). exists s. rewrite Ab; [auto|now apply in_map]. }
    assert (Qc : cfgs_in h1 ((r, n) :: l) = cfgs_of h1 X) by (rewrite <- Fx; unfold cfgs_in, cfgs_of; now rewrite map_map).
    assert (N : NoDup (cfgs_in h1 ((r, n) :: l))). { rewrite Qc. revert own2. unfold cfgs_of. rewrite map_app. apply nodup_app_l. }
    destruct (fixed_l (FitSet h1 (Some roi) dt None None None) c0 r n l W1 Fi N) as (h2 & T & ps & parts & E & W2 & AT & RT & FT & PT & XT & K & Re & Fp & Ct & De & Na & s1 & As1 & Cu).
    cbn [z_heap the_roi z_roi] in *. set (t := length (h_objs h1)) in *.
    exists h2, (Some (t, ps)). split; [rewrite Fx; exact E|]. split; [exact W2|].
    rewrite Qc in K. destruct (disjoint_refs h1 X (A ++ floating ++ S) own2) as [_ D2].
    destruct (others_can _ _ roi h1 h2 (A ++ floating ++ S) K CO) as (G1 & G2); [tauto|exact D2|].
    rewrite Forall_forall in G1. assert (Q2 : cfgs_of h2 (A ++ floating ++ S) = cfgs_of h1 (A ++ floating ++ S)) by exact (kept_cfgs_of _ _ _ _ _ roi _ K CO).
    assert (P : Permutation (t :: A ++ floating ++ S) (floating ++ A ++ S ++ [t])).
    { rewrite !app_assoc. rewrite <- Permutation_cons_append. constructor. apply Permutation_app_tail, Permutation_app_comm. }
    assert (CC : Forall (can roi h2) (t :: A ++ floating ++ S)) by (constructor; [exists T; auto|exact G2]).
    assert (NN : NoDup (cfgs_of h2 (t :: A ++ floating ++ S))).
    { change (NoDup (cfg_of h2 t :: cfgs_of h2 (A ++ floating ++ S))). rewrite Q2, XT. revert own2. rewrite Fx. cbn [map fst app]. unfold cfgs_of. cbn [map]. rewrite map_app. intro own2.
      inversion own2 as [|u v N1 N2]; subst. constructor; [intro I; apply N1, in_or_app; now right|exact (nodup_app_r _ _ N2)]. }
    cbn [opt_ref]. split; [exact (Forall_perm _ _ _ P CC)|]. split; [exact (own_perm _ _ _ P NN)|]. split; [exact G1|].
    rewrite Fx. exists t, ps, T. split; [reflexivity|]. split; [exact Len|]. split; [exact AT|].
    assert (Ax : forall x, In x X -> abs h1 x = abs h0 x) by exact Ab. rewrite Fx in Ax. cbn [map fst] in Ax.
    split; [|split; [|split; [exact (cut_self _ _ _ Cu)|exact RT]]].
    - exists parts. split.
      { clear - Fp Ax. set (q := (r, n) :: l) in *. assert (Hq : forall x, In x (map fst q) -> abs h1 x = abs h0 x) by exact Ax. clearbody q. clear Ax.
        induction Fp as [|a b u v (Y1 & Y2 & Y3) Fp IH]; constructor; [|apply IH; intros x I; apply Hq; now right]. split; [|auto]. rewrite <- Hq by now left. exact Y1. }
      split; [exact Ct|]. split; [exact De|]. split; [exact Na|]. split; [apply RT|]. exists s1. split; [|exact Cu]. rewrite <- Ax by now left. exact As1.
    - destruct (restrictable_pars roi T RT) as (ps' & Y1 & Y2). rewrite PT in Y1. injection Y1 as <-. exact Y2.
  Qed.

  Definition float_made (h : heap) (fl : option (list nat * list (list string))) : Prop :=
    match floating with
    | [] => fl = None
    | _ => exists pss, fl = Some (floating, pss) /\ Forall2 (fun r ps => exists s', abs h r = Some s' /\ roi_axes roi (s_cfg s') ps) floating pss
    end.
  Lemma float_step h2 dt fx l : wf_heap h2 -> Forall (can roi h2) (floating ++ l) -> NoDup (cfgs_of h2 (floating ++ l)) ->
    exists h3 fl, (match floating with [] => fun z => (z, None) | l => set_floating_backgrounds config l true end) (FitSet h2 (Some roi) dt fx None None) =
      (FitSet h3 (Some roi) dt fx fl None, None) /\ wf_heap h3 /\ Forall (can roi h3) (floating ++ l) /\ NoDup (cfgs_of h3 (floating ++ l)) /\
      Forall (restricted roi h2 h3) floating /\ (forall r, In r l -> abs h3 r = abs h2 r) /\ float_made h3 fl.
  Proof.
    intros W C N. unfold float_made. destruct floating as [|r0 l0] eqn:Fx.
    { exists h2, None. split; [reflexivity|]. split; [exact W|]. split; [exact C|]. split; [exact N|]. split; [constructor|]. auto. }
    rewrite <- Fx in *. pose proof C as C'. apply Forall_app in C' as [CF _]. assert (NF : NoDup (cfgs_of h2 floating)) by (revert N; unfold cfgs_of; rewrite map_app; apply nodup_app_l).
    destruct (float_each_l config roi floating h2 W CF NF configs) as (h3 & pss & E & W3 & R & P & K).
    destruct (stage roi h2 h3 floating l K R C N) as (G1 & G2 & G3).
    exists h3, (Some (floating, pss)). split; [rewrite Fx, <- Fx; unfold set_floating_backgrounds; cbn [the_roi z_roi z_heap]; now rewrite E|].
    split; [exact W3|]. split; [exact G1|]. split; [now rewrite G2|]. split; [exact R|]. split; [exact G3|]. rewrite Fx. rewrite Fx in P. exists pss. auto.
  Qed.

  Lemma new_fit_l shrink : exists z, new_fit config None given data fixed floating signal shrink h0 = (z, None) /\ fit_made roi h0 data fixed floating signal z /\
    (data <> None -> roi <> [] -> fixed <> [] \/ floating <> [] -> check_all_spectra config z = None).
  Proof.
    destruct data_step as (h1 & y & E1 & W1 & C1 & Q1 & R1 & P1 & G1 & L1).
    destruct (fixed_step h1 (option_map (fun r => (r, y)) data) W1 C1 Q1) as (h2 & fx & E2 & W2 & C2 & N2 & G2 & M2). { intros r I. apply G1, in_or_app. now left. } { exact L1. }
    destruct (float_step h2 (option_map (fun r => (r, y)) data) fx (A ++ S ++ opt_ref fx) W2 C2 N2) as (h3 & fl & E3 & W3 & C3 & N3 & R3 & G3 & M3).
    assert (P4 : Permutation (floating ++ A ++ S ++ opt_ref fx) (S ++ floating ++ A ++ opt_ref fx)).
    { rewrite !app_assoc. apply Permutation_app_tail. transitivity (S ++ (floating ++ A)); [apply Permutation_app_comm|now rewrite app_assoc]. }
    pose proof (Forall_perm _ _ _ P4 C3) as C3'. pose proof (own_perm _ _ _ P4 N3) as N3'.
    destruct (given_one_l false z_with_signal (fun z => old_pars (z_signal z)) signal (FitSet h3 (Some roi) (option_map (fun r => (r, y)) data) fx fl None) W3) as (h4 & y' & E4 & W4 & K4 & R4 & P4').
    { apply Forall_app in C3' as [Y _]. exact Y. }
    cbn [z_heap the_roi z_roi] in *.
    destruct (stage roi h3 h4 S (floating ++ A ++ opt_ref fx) K4 R4 C3' N3') as (C4 & Q4 & G4). rewrite <- Q4 in N3'. rename N3' into N4.
    set (dt := option_map (fun r => (r, y)) data) in *. set (sg := option_map (fun r => (r, y')) signal).
    assert (E4' : if_given signal (fun r => set_signal r true) (FitSet h3 (Some roi) dt fx fl None) = (FitSet h4 (Some roi) dt fx fl sg, None)).
    { unfold set_signal. cbn in E4 |- *. rewrite E4. unfold sg. destruct signal; reflexivity. }
    set (z4 := FitSet h4 (Some roi) dt fx fl sg).
    (* what the fit holds before shrink_all *)
    assert (RA : forall r, In r A -> restricted roi h0 h4 r).
    { intros r I. rewrite Forall_forall in R1. destruct (R1 r I) as (s & s' & Y1 & Y2 & Y3). exists s, s'. split; [exact Y1|]. split; [|exact Y3].
      rewrite G4, G3, G2; [exact Y2|apply in_or_app; now left|apply in_or_app; now left|apply in_or_app; right; apply in_or_app; now left]. }
    assert (RF : forall r, In r floating -> restricted roi h0 h4 r).
    { intros r I. rewrite Forall_forall in R3. destruct (R3 r I) as (s & s' & Y1 & Y2 & Y3). exists s, s'. split; [|split; [|exact Y3]].
      - rewrite <- G1, <- G2; [exact Y1|apply in_or_app; right; apply in_or_app; now left|apply in_or_app; right; apply in_or_app; now left].
      - rewrite G4; [exact Y2|]. apply in_or_app. now left. }
    assert (RS : forall r, In r S -> restricted roi h0 h4 r).
    { intros r I. rewrite Forall_forall in R4. destruct (R4 r I) as (s & s' & Y1 & Y2 & Y3). exists s, s'. split; [|split; [exact Y2|exact Y3]].
      rewrite <- G1, <- G2, <- G3; [exact Y1| | |]; repeat (apply in_or_app; first [now left|right]); exact I. }
    assert (M4 : fixed_made h4 fx).
    { revert M2. unfold fixed_made. destruct fixed; [auto|]. intros (t & ps & T & -> & Y). exists t, ps, T. split; [reflexivity|]. destruct Y as (Y1 & Y2 & Y3). split; [exact Y1|]. split; [|exact Y3].
      rewrite G4, G3; [exact Y2| |]; cbn [opt_ref]; repeat (apply in_or_app; right); now left. }
    assert (FR : float_refs z4 = floating). { unfold float_refs, z4. cbn. revert M3. unfold float_made. destruct floating; [now intros ->|]. intros (pss & -> & _). reflexivity. }
    assert (OD : opt_ref dt = A) by (unfold dt; destruct data; reflexivity). assert (OS : opt_ref sg = S) by (unfold sg; destruct signal; reflexivity).
    assert (P5 : Permutation (S ++ floating ++ A ++ opt_ref fx) (A ++ opt_ref fx ++ S ++ floating)).
    { rewrite (app_assoc S), (app_assoc A). apply Permutation_app_comm. }
    pose proof (Forall_perm _ _ _ P5 C4) as C5. pose proof (own_perm _ _ _ P5 N4) as N5.
    assert (Z5 : exists h5, (if shrink then shrink_all else fun z => (z, None)) z4 = (FitSet h5 (Some roi) dt fx fl sg, None) /\ wf_heap h5 /\
              (forall r, In r (A ++ opt_ref fx ++ S ++ floating) -> forall s, abs h4 r = Some s -> exists s', abs h5 r = Some s' /\ (s' = s \/ in_region roi s s'))).
    { destruct shrink.
      - destruct (shrink_each_l roi _ h4 W4 C5 N5) as (h5 & E5 & W5 & R5 & _). exists h5. split; [|split; [exact W5|]].
        + unfold shrink_all. rewrite FR. unfold z4 at 1 2 3 4 5. cbn [z_data z_fixed z_signal the_roi z_roi z_heap]. rewrite OD, OS, E5. reflexivity.
        + intros r I s As. rewrite Forall_forall in R5. destruct (R5 r I) as (u & s' & Y1 & Y2 & Y3). exists s'. split; [exact Y2|]. right. assert (u = s) as -> by congruence. exact Y3.
      - exists h4. split; [reflexivity|]. split; [exact W4|]. intros r I s As. exists s. auto. }
    destruct Z5 as (h5 & E5 & W5 & R5). set (z5 := FitSet h5 (Some roi) dt fx fl sg) in *.
    assert (again : forall r, In r (A ++ opt_ref fx ++ S ++ floating) -> restricted roi h0 h4 r -> restricted roi h0 h5 r /\ forall s, abs h4 r = Some s -> exists s', abs h5 r = Some s' /\ s_cfg s' = s_cfg s).
    { intros r I (s & s' & Y1 & Y2 & Y3). destruct (R5 r I s' Y2) as (s5 & Y4 & Y5). split.
      - destruct Y5 as [->|Y5]; [now exists s, s'|]. apply (region_again roi h0 h4 h5 r); [now exists s, s'|now exists s', s5].
      - intros u Hu. assert (u = s') as -> by congruence. exists s5. split; [exact Y4|]. destruct Y5 as [->|Y5]; [reflexivity|]. apply (region_twice roi s s' s5 Y3 Y5). }
    assert (FM : fit_made roi h0 data fixed floating signal z5).
    { constructor; cbn [z_roi z_heap z_data z_fixed z_floating z_signal z5].
      - reflexivity.
      - exact W5.
      - unfold one_made, dt. clear - data again RA P1 G2 G3 G4. destruct data as [r|]; [|reflexivity]. cbn [option_map ol] in *. inversion P1 as [|a b (s1 & Y1 & Y2) _]; subst.
        assert (I : In r [r]) by now left. destruct (again r) as (Z1 & Z2); [now left|now apply RA|]. destruct (Z2 s1) as (s5 & Z3 & Z4).
        { rewrite G4, G3, G2; [exact Y1|apply in_or_app; now left|apply in_or_app; now left|apply in_or_app; right; apply in_or_app; now left]. }
        exists y, s5. split; [reflexivity|]. split; [exact Z1|]. split; [exact Z3|]. now rewrite Z4.
      - revert M4. unfold fixed_made. clear - R5. destruct fixed as [|rn l]; [auto|]. intros (t & ps & T & -> & Y1 & Y2 & Y3 & Y4 & Y5 & Y6).
        destruct (R5 t) with (s := T) as (T5 & Z1 & Z2). { cbn [opt_ref]. apply in_or_app. right. now left. } { exact Y2. }
        assert (M : same_spectra T5 T). { destruct Z2 as [->|Z2]; [apply same_refl|]. apply (region_self roi T T5); [apply Y6|exact Y5|exact Z2]. }
        exists t, ps, T5. split; [reflexivity|]. split; [exact Y1|]. split; [exact Z1|]. split; [exact (total_same _ _ _ _ _ Y3 M)|]. destruct M as [(_ & _ & -> & _) _]. exact Y4.
      - revert M3. unfold float_made. destruct floating as [|r0 l0] eqn:Fx; [auto|]. rewrite <- Fx in *. intros (pss & -> & F2). exists pss. split; [reflexivity|].
        apply (Forall2_in _ _ _ _ F2). intros r ps I (s3 & Y1 & Y2). destruct (again r) as (Z1 & Z2); [repeat (apply in_or_app; right); exact I|now apply RF|].
        destruct (Z2 s3) as (s5 & Z3 & Z4). { rewrite G4; [exact Y1|apply in_or_app; now left]. }
        exists ps, s5. split; [reflexivity|]. split; [exact Z1|]. split; [exact Z3|]. now rewrite Z4.
      - unfold one_made, sg. clear - signal again RS P4'. destruct signal as [r|]; [|reflexivity]. cbn [option_map ol] in *. inversion P4' as [|a b (s1 & Y1 & Y2) _]; subst.
        destruct (again r) as (Z1 & Z2); [apply in_or_app; right; apply in_or_app; right; now left|apply RS; now left|]. destruct (Z2 s1 Y1) as (s5 & Z3 & Z4).
        exists y', s5. split; [reflexivity|]. split; [exact Z1|]. split; [exact Z3|]. now rewrite Z4. }
    assert (OK : data <> None -> roi <> [] -> fixed <> [] \/ floating <> [] -> check_all_spectra config z5 = None).
    { intros Hd Hr Hf.
      assert (part : forall x y, one_made roi h0 h5 x y -> (forall r, x = Some r -> can roi h0 r) -> check_part roi h5 y = None).
      { intros [r|] yy Y Cn; cbn in Y; [|now rewrite Y]. destruct Y as (ps & s' & -> & (s & u & Y1 & Y2 & Y3) & Y4 & Y5). assert (u = s') as -> by congruence.
        destruct (Cn r eq_refl) as (s0 & B1 & B2). assert (s0 = s) as -> by congruence. cbn. destruct ps as [|p ps]; [inversion Y5; subst; congruence|].
        unfold check_obj. rewrite Y4. exact (region_checked roi s s' B2 Y3). }
      pose proof cans as Ca. rewrite Forall_forall in Ca.
      assert (PD : check_part roi h5 dt = None). { apply (part data); [exact (fm_data _ _ _ _ _ _ _ FM)|]. intros r Er. apply Ca. rewrite Er. now left. }
      assert (PS : check_part roi h5 sg = None). { apply (part signal); [exact (fm_signal _ _ _ _ _ _ _ FM)|]. intros r Er. apply Ca. rewrite Er. repeat (apply in_or_app; right). now left. }
      assert (PF : check_part roi h5 fx = None).
      { revert M4. unfold fixed_made. clear - R5 Hr. destruct fixed as [|rn l]; [now intros ->|]. intros (t & ps & T & -> & Y1 & Y2 & Y3 & Y4 & Y5 & Y6).
        destruct (R5 t) with (s := T) as (T5 & Z1 & Z2). { cbn [opt_ref]. apply in_or_app. right. now left. } { exact Y2. }
        cbn. destruct ps as [|p ps]; [inversion Y4; subst; congruence|]. unfold check_obj. rewrite Z1. destruct Z2 as [->|Z2]; [exact (self_checked roi T Y6 Y5)|exact (region_checked roi T T5 Y6 Z2)]. }
      assert (FF : check_floating config fl = None).
      { revert M3. unfold float_made. destruct floating as [|r0 l0] eqn:Fx; [now intros ->|]. intros (pss & -> & F2). unfold check_floating. pose proof (Forall2_len _ _ _ F2) as Le.
        destruct pss as [|ps pss]; [discriminate|]. rewrite Le, Nat.eqb_refl. clear - configs. induction (r0 :: l0) as [|r l IH]; [reflexivity|]. cbn. rewrite configs by now left. apply IH. intros r' I. apply configs. now right. }
      assert (OR : match fx, fl with None, None => Some ECompatibilityError | _, _ => None end = None).
      { revert M4 M3. unfold fixed_made, float_made. destruct fixed as [|rn l]; [|intros (t & ps & T & -> & _); reflexivity]. destruct floating as [|r0 l0]; [destruct Hf; congruence|].
        intros _ (pss & -> & _). destruct fx; reflexivity. }
      unfold check_all_spectra, z5. cbn [z_data z_fixed z_floating z_signal z_heap the_roi z_roi]. unfold dt in *. destruct data as [r|]; [|congruence]. cbn [option_map].
      cbn [option_map] in PD. rewrite PD, OR, PF, PS, FF. reflexivity. }
    exists z5. split; [|split; [exact FM|exact OK]].
    unfold new_fit. unfold out in E2, E3, E4', E5 |- *. unfold set_roi at 1. cbn [z_roi]. rewrite roi_ok. cbn [z_with_roi z_heap z_data z_fixed z_floating z_signal].
    rewrite (chain_ok _ (FitSet h0 (Some roi) None None None None) _ eq_refl). rewrite E1.
    rewrite (chain_ok _ _ _ eq_refl). rewrite E2. rewrite (chain_ok _ _ _ eq_refl). rewrite E3. rewrite (chain_ok _ _ _ eq_refl). rewrite (chain_ok _ _ _ eq_refl).
    rewrite E4'. rewrite (chain_ok _ _ _ eq_refl). fold z4. rewrite E5. rewrite (chain_ok _ _ _ eq_refl). f_equal.
    assert (D : check_all_spectra config z5 = None \/ check_all_spectra config z5 = Some ECompatibilityError).
    { pose proof (fm_data _ _ _ _ _ _ _ FM) as Fd. cbn [z5 z_heap z_data] in Fd.
      destruct data as [r|] eqn:Ed; [|now right]. destruct roi as [|x roi'] eqn:Er.
      - right. cbn in Fd. destruct Fd as (ps & s' & Y1 & _ & _ & Y4). inversion Y4; subst. unfold check_all_spectra. unfold z5. cbn [z_data]. injection Y1 as ->. reflexivity.
      - destruct fixed as [|rn l] eqn:Ef; [|left; apply OK; [congruence|congruence|left; congruence]].
        destruct floating as [|r0 l0] eqn:El; [|left; apply OK; [congruence|congruence|right; congruence]].
        unfold fixed_made in M4. unfold float_made in M3. rewrite Ef in M4. rewrite El in M3. right. unfold check_all_spectra, z5. cbn [z_data z_fixed z_floating z_heap z_signal the_roi z_roi]. unfold dt in *. cbn [option_map]. rewrite M4, M3.
        cbn [first_error]. destruct Fd as (ps & s' & Y1 & (s & u & Y2 & Y3 & Y4) & Y5 & Y6). injection Y1 as ->. assert (u = s') as -> by congruence.
        cbn [check_part]. destruct ps as [|p ps]; [inversion Y6|]. unfold check_obj. rewrite Y5.
        inversion cans as [|a b (s0 & B1 & B2) _]; subst. assert (s0 = s) as -> by congruence. now rewrite (region_checked _ s s' B2 Y4). }
    destruct D as [->| ->]; reflexivity.
  Qed.
End Constructor.

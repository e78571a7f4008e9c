(** Lemmas about heaps of spectra (Model/Heap.v). *)
From Coq Require Import Lia.
From Verif Require Import Model.Base Model.PyStr Model.NDArray Model.Param Model.Config Model.Spectra
  Model.Smear Model.Shift Model.Heap.
From Verif Require Import Spec.ArraySpec Spec.SpectraSpec Spec.HeapSpec.
From Verif Require Import Proofs.QcLemmas Proofs.NDArrayLemmas Proofs.ExtLemmas Proofs.DeriveExt.

(** ** Lists *)
Lemma lset_length {A} n (x : A) l : length (lset n x l) = length l.
Proof. revert n. induction l as [|y l IH]; intros [|n]; cbn; congruence. Qed.
Lemma nth_lset_same {A} n (x : A) l : n < length l -> nth_error (lset n x l) n = Some x.
Proof. revert n. induction l as [|y l IH]; intros [|n] H; cbn in *; try lia; [reflexivity|]. apply IH. lia. Qed.
Lemma nth_lset_other {A} n m (x : A) l : m <> n -> nth_error (lset n x l) m = nth_error l m.
Proof. revert n m. induction l as [|y l IH]; intros [|n] [|m] H; cbn; try reflexivity; try congruence. apply IH. congruence. Qed.
Lemma nth_some_lt {A} (l : list A) n x : nth_error l n = Some x -> n < length l.
Proof. intro H. apply nth_error_Some. congruence. Qed.
Lemma nth_app_old {A} (l : list A) m n : n < length l -> nth_error (l ++ m) n = nth_error l n.
Proof. intro H. now apply nth_error_app1. Qed.
Lemma nth_app_new {A} (l : list A) x : nth_error (l ++ [x]) (length l) = Some x.
Proof. rewrite nth_error_app2 by lia. now rewrite Nat.sub_diag. Qed.

(** ** Windows *)
Definition in_bounds (v : view) (sh : list nat) : Prop := Forall2 (fun on n => (fst on + snd on <= n)%nat) v sh.
Lemma vinside_offset v : forall i, valid_idx (vshape v) i -> vinside v (zip_with Nat.add (map fst v) i) = Some i.
Proof.
  induction v as [|[o n] v IH]; intros i V; inversion V as [|k m i' sh K V']; subst; [reflexivity|].
  cbn [map fst zip_with vinside]. cbn in K. destruct (Nat.leb_spec o (o + k)); [|lia]. destruct (Nat.ltb_spec (o + k) (o + n)); [|lia]. cbn [andb].
  rewrite IH by exact V'. replace (o + k - o) with k by lia. reflexivity.
Qed.
Lemma vread_write v d b : ashape d = vshape v -> arr_eq (vread v (vwrite v d b)) d.
Proof. intro S. split; [now symmetry|]. cbn. intros i V. now rewrite vinside_offset. Qed.
Lemma full_zip sh : forall i, valid_idx sh i -> zip_with Nat.add (map fst (map (fun n : nat => (0, n)) sh)) i = i.
Proof. induction sh as [|n sh IH]; intros i V; inversion V; subst; cbn; [reflexivity|]. f_equal. now apply IH. Qed.
Lemma full_shape d : vshape (full_view d) = ashape d.
Proof. unfold vshape, full_view. rewrite map_map. cbn. apply map_id. Qed.
Lemma vread_full d : arr_eq (vread (full_view d) d) d.
Proof. split; [apply full_shape|]. cbn. rewrite full_shape. intros i V. unfold full_view. now rewrite full_zip. Qed.
Lemma full_bounds d : in_bounds (full_view d) (ashape d).
Proof. unfold in_bounds, full_view. induction (ashape d) as [|n sh IH]; constructor; [cbn; lia|exact IH]. Qed.
Lemma slice_len lh n : snd (slice_axis lh n) <= n /\ fst (slice_axis lh n) + snd (slice_axis lh n) <= n.
Proof. unfold slice_axis. cbn. pose proof (clip_le (fst lh) n). pose proof (clip_le (snd lh) n). lia. Qed.
Lemma vslice_read sls v b : match vslice sls v, aslice sls (vread v b) with Ok v', Ok d => arr_eq (vread v' b) d | Err e, Err f => e = f | _, _ => False end.
Proof.
  unfold vslice, aslice, andim. cbn [ashape vread]. unfold vshape. rewrite map_length.
  destruct (Nat.eqb_spec (length sls) (length v)) as [E|]; [|reflexivity].
  assert (S : vshape (zip_with (fun lh on => let '(s, n) := slice_axis lh (snd on) in (fst on + s, n)) sls v) =
              map snd (zip_with slice_axis sls (map snd v))).
  { clear b. revert v E. induction sls as [|sl sls IH]; intros [|on v] E; try discriminate; [reflexivity|]. cbn. unfold vshape in IH. f_equal. apply IH. now injection E. }
  split; [exact S|]. intros i V. cbn [ashape vread] in V. rewrite S in V. cbn. f_equal. clear S b. revert v i E V.
  induction sls as [|sl sls IH]; intros [|on v] i E V; try discriminate; [reflexivity|].
  inversion V as [|k m i' sh K V']; subst. cbn. f_equal; [lia|]. apply IH; [now injection E|exact V'].
Qed.
Lemma vslice_bounds sls v v' sh : vslice sls v = Ok v' -> in_bounds v sh -> in_bounds v' sh.
Proof.
  unfold vslice. destruct (Nat.eqb_spec (length sls) (length v)) as [E|]; [|discriminate]. intro H. injection H as <-. unfold in_bounds.
  revert sls sh E. induction v as [|on v IH]; intros [|sl sls] sh E B; try discriminate; cbn; [exact B|].
  inversion B as [|x n v' sh' L B']; subst. constructor; [|apply IH; [now injection E|exact B']].
  pose proof (slice_len sl (snd on)) as K. unfold slice_axis in K. cbn in K |- *. lia.
Qed.
Lemma bounds_write v d b sh : in_bounds sh (ashape b) -> in_bounds sh (ashape (vwrite v d b)).
Proof. exact (fun H => H). Qed.
Lemma fill_data_shape w kw s d : fill_data w kw s = Ok d -> ashape d = ashape (s_data s).
Proof.
  unfold fill_data, rbind. destruct (fill_check_unknown _ _); [|discriminate]. destruct (fill_check_missing _ _); [|discriminate].
  destruct (fill_check_range _ _); [|discriminate]. destruct (fill_bins _ _); [|discriminate]. unfold aadd_at, rbind.
  destruct (norm_indices _ _); [|discriminate]. intro H. now injection H as <-.
Qed.

(** ** Objects *)
Lemma view_obj_ext h h' o : nth_error (h_cfgs h') (o_cfg o) = nth_error (h_cfgs h) (o_cfg o) ->
  nth_error (h_bufs h') (o_buf o) = nth_error (h_bufs h) (o_buf o) ->
  nth_error (h_roid h') (o_rois o) = nth_error (h_roid h) (o_rois o) -> view_obj h' o = view_obj h o.
Proof. unfold view_obj. intros -> -> ->. reflexivity. Qed.
Lemma wf_view h o : wf_obj h o -> exists c b d, nth_error (h_cfgs h) (o_cfg o) = Some c /\ nth_error (h_bufs h) (o_buf o) = Some b /\
  nth_error (h_roid h) (o_rois o) = Some d /\ in_bounds (o_view o) (ashape b).
Proof.
  intros (C & D & b & B & V). apply nth_error_Some in C, D.
  destruct (nth_error (h_cfgs h) (o_cfg o)) as [c|]; [|congruence]. destruct (nth_error (h_roid h) (o_rois o)) as [d|]; [|congruence].
  now exists c, b, d.
Qed.
Lemma abs_split h r s : abs h r = Some s -> exists o c b d, nth_error (h_objs h) r = Some o /\ nth_error (h_cfgs h) (o_cfg o) = Some c /\
  nth_error (h_bufs h) (o_buf o) = Some b /\ nth_error (h_roid h) (o_rois o) = Some d /\
  s = Spec (o_name o) (o_bg o) c (vread (o_view o) b) (o_decays o) (o_raw o) (o_bipo o) d.
Proof.
  unfold abs, view_obj. destruct (nth_error (h_objs h) r) as [o|]; [|discriminate]. destruct (nth_error (h_cfgs h) (o_cfg o)) as [c|] eqn:C; [|discriminate].
  destruct (nth_error (h_bufs h) (o_buf o)) as [b|] eqn:B; [|discriminate]. destruct (nth_error (h_roid h) (o_rois o)) as [d|] eqn:D; [|discriminate].
  intro H. injection H as <-. now exists o, c, b, d.
Qed.
Lemma abs_join h r o c b d : nth_error (h_objs h) r = Some o -> nth_error (h_cfgs h) (o_cfg o) = Some c ->
  nth_error (h_bufs h) (o_buf o) = Some b -> nth_error (h_roid h) (o_rois o) = Some d ->
  abs h r = Some (Spec (o_name o) (o_bg o) c (vread (o_view o) b) (o_decays o) (o_raw o) (o_bipo o) d).
Proof. intros O C B D. unfold abs, view_obj. now rewrite O, C, B, D. Qed.
Lemma on_obj_some h r s k : abs h r = Some s -> exists o, nth_error (h_objs h) r = Some o /\ view_obj h o = Some s /\ on_obj h r k = k o s.
Proof.
  unfold abs, on_obj. destruct (nth_error (h_objs h) r) as [o|]; [|discriminate]. intro V. exists o. now rewrite V.
Qed.
Lemma on_obj_none h r k : abs h r = None -> on_obj h r k = (h, Some EAttributeError).
Proof. unfold abs, on_obj. destruct (nth_error (h_objs h) r) as [o|]; [|reflexivity]. now intros ->. Qed.

(** ** What a call on object [r] may change *)
Record effect (wc wb wr : bool) (r : nat) (o : hspec) (h h' : heap) : Prop := Eff {
  e_len : length (h_objs h') = length (h_objs h);
  e_other : forall r', r' <> r -> nth_error (h_objs h') r' = nth_error (h_objs h) r';
  e_self : exists o', nth_error (h_objs h') r = Some o' /\ o_cfg o' = o_cfg o /\ o_rois o' = o_rois o /\
           (o_buf o' = o_buf o \/ length (h_bufs h) <= o_buf o');
  e_cfgs_len : length (h_cfgs h') = length (h_cfgs h);
  e_cfgs : forall i, wc = false \/ i <> o_cfg o -> nth_error (h_cfgs h') i = nth_error (h_cfgs h) i;
  e_bufs_len : length (h_bufs h) <= length (h_bufs h');
  e_bufs : forall i, wb = false \/ i <> o_buf o -> i < length (h_bufs h) -> nth_error (h_bufs h') i = nth_error (h_bufs h) i;
  e_roid_len : length (h_roid h') = length (h_roid h);
  e_roid : forall i, wr = false \/ i <> o_rois o -> nth_error (h_roid h') i = nth_error (h_roid h) i }.

Lemma effect_refl r o h : nth_error (h_objs h) r = Some o -> effect false false false r o h h.
Proof. intro H. constructor; auto. exists o. auto. Qed.
Lemma effect_weaken wc wb wr wc' wb' wr' r o h h' : effect wc wb wr r o h h' -> (wc' = false -> wc = false) -> (wb' = false -> wb = false) ->
  (wr' = false -> wr = false) -> effect wc' wb' wr' r o h h'.
Proof. intros [] C B R. constructor; auto; intros i []; auto. Qed.
Lemma effect_set_obj r o o' h : nth_error (h_objs h) r = Some o -> o_cfg o' = o_cfg o -> o_rois o' = o_rois o -> o_buf o' = o_buf o ->
  effect false false false r o h (set_obj h r o').
Proof.
  intros H C R B. constructor; cbn; auto.
  - apply lset_length.
  - intros r' N. now apply nth_lset_other.
  - exists o'. rewrite nth_lset_same by now apply nth_some_lt in H. auto.
Qed.
Lemma effect_set_cfg r o c h : nth_error (h_objs h) r = Some o -> effect true false false r o h (set_cfg h (o_cfg o) c).
Proof.
  intros H. constructor; cbn; auto.
  - exists o. auto.
  - apply lset_length.
  - intros i [|N]; [discriminate|]. now apply nth_lset_other.
Qed.
Lemma effect_set_roid r o d h : nth_error (h_objs h) r = Some o -> effect false false true r o h (set_roid h (o_rois o) d).
Proof.
  intros H. constructor; cbn; auto.
  - exists o. auto.
  - apply lset_length.
  - intros i [|N]; [discriminate|]. now apply nth_lset_other.
Qed.
Lemma effect_write r o d h : nth_error (h_objs h) r = Some o -> effect false true false r o h (write_data h o d).
Proof.
  intros H. unfold write_data. destruct (nth_error (h_bufs h) (o_buf o)) as [b|].
  2:{ eapply effect_weaken; [apply effect_refl, H|auto..]. }
  constructor; cbn; auto.
  - exists o. auto.
  - rewrite lset_length. lia.
  - intros i [|N] L; [discriminate|]. now apply nth_lset_other.
Qed.
Lemma effect_bind r o o' d h : nth_error (h_objs h) r = Some o -> o_cfg o' = o_cfg o -> o_rois o' = o_rois o ->
  effect false false false r o h (bind_data h r o' d).
Proof.
  intros H C R. unfold bind_data. cbn. constructor; cbn; auto.
  - apply lset_length.
  - intros r' N. now apply nth_lset_other.
  - eexists. rewrite nth_lset_same by now apply nth_some_lt in H. split; [reflexivity|]. cbn. auto.
  - rewrite app_length. lia.
  - intros i _ L. now apply nth_app_old.
Qed.
Lemma effect_trans wc wb wr r o o1 h h1 h2 : o_cfg o1 = o_cfg o -> o_rois o1 = o_rois o -> (o_buf o1 = o_buf o \/ length (h_bufs h) <= o_buf o1) ->
  effect wc wb wr r o h h1 -> effect wc wb wr r o1 h1 h2 -> effect wc wb wr r o h h2.
Proof.
  intros C R B [L1 O1 S1 C1 D1 B1 E1 R1 F1] [L2 O2 S2 C2 D2 B2 E2 R2 F2]. constructor.
  - congruence.
  - intros r' N. rewrite O2, O1; auto.
  - destruct S2 as (o2 & P & Q & T & U). exists o2. split; [exact P|]. split; [congruence|]. split; [congruence|]. destruct U as [->|]; [exact B|lia].
  - congruence.
  - intros i [W|N]; rewrite D2, D1; auto. right. congruence.
  - lia.
  - intros i W L. rewrite E2, E1; auto; [|lia]. destruct W as [W|W]; [auto|]. right. destruct B as [->|]; [exact W|lia].
  - congruence.
  - intros i [W|N]; rewrite F2, F1; auto. right. congruence.
Qed.

(** Well-formedness after an effect: only the object itself has to be looked at. *)
Definition buf_shapes_kept (h h' : heap) : Prop := forall i b, nth_error (h_bufs h) i = Some b -> exists b', nth_error (h_bufs h') i = Some b' /\ ashape b' = ashape b.
Lemma wf_effect wc wb wr r o h h' : effect wc wb wr r o h h' -> buf_shapes_kept h h' -> wf_heap h ->
  (forall o', nth_error (h_objs h') r = Some o' -> exists b, nth_error (h_bufs h') (o_buf o') = Some b /\ in_bounds (o_view o') (ashape b)) ->
  nth_error (h_objs h) r = Some o -> wf_heap h'.
Proof.
  intros [L O (o1 & S1 & S2 & S3 & _) C _ _ _ R _] K W V H r' o' H'. destruct (Nat.eq_dec r' r) as [->|N].
  - assert (o1 = o') as <- by congruence. destruct (V o1 H') as (b & B & I). destruct (W r o H) as (X & Y & _).
    split; [rewrite C, S2; exact X|]. split; [rewrite R, S3; exact Y|]. now exists b.
  - rewrite O in H' by exact N. destruct (W r' o' H') as (X & Y & b & B & I). split; [now rewrite C|]. split; [now rewrite R|].
    destruct (K _ _ B) as (b' & B' & E). exists b'. split; [exact B'|]. rewrite E. exact I.
Qed.
Lemma kept_refl h h' : h_bufs h' = h_bufs h -> buf_shapes_kept h h'.
Proof. intros E i b B. exists b. rewrite E. auto. Qed.
Lemma kept_write h o d : buf_shapes_kept h (write_data h o d).
Proof.
  intros i b B. unfold write_data. destruct (nth_error (h_bufs h) (o_buf o)) as [b0|] eqn:Z; [|now exists b]. cbn.
  destruct (Nat.eq_dec i (o_buf o)) as [->|N].
  - rewrite nth_lset_same by now apply nth_some_lt in B. eexists. split; [reflexivity|]. cbn. congruence.
  - rewrite nth_lset_other by exact N. now exists b.
Qed.
Lemma kept_bind h r o d : buf_shapes_kept h (bind_data h r o d).
Proof. intros i b B. unfold bind_data. cbn. exists b. split; [|reflexivity]. rewrite nth_app_old; [exact B|now apply nth_some_lt in B]. Qed.

(** ** The calls: effect, well-formedness, and the value-level result on the target *)
Definition good_call (wc wb wr : bool) (r : nat) (h : heap) (x : heap * out) (y : spectra * out) : Prop :=
  (forall o, nth_error (h_objs h) r = Some o -> effect wc wb wr r o h (fst x)) /\ wf_heap (fst x) /\
  (exists s', abs (fst x) r = Some s' /\ same_spectra s' (fst y)) /\ snd x = snd y.

Lemma good_same h r s e wc wb wr : wf_heap h -> abs h r = Some s -> good_call wc wb wr r h (h, e) (s, e).
Proof.
  intros W A. split; [|split; [exact W|split; [|reflexivity]]].
  - intros o H. eapply effect_weaken; [apply effect_refl, H|auto..].
  - exists s. split; [exact A|apply same_refl].
Qed.

Lemma fill_call w kw r h s : wf_heap h -> abs h r = Some s -> good_call false true false r h (h_fill w kw r h) (fill w kw s).
Proof.
  intros W A. unfold h_fill. destruct (on_obj_some h r s (fun o s => match fill_data w kw s with Ok d => (write_data h o d, None) | Err e => (h, Some e) end) A) as (o & O & V & ->).
  unfold fill. destruct (fill_data w kw s) as [d|e] eqn:F; [|now apply good_same].
  destruct (abs_split h r s A) as (o' & c & b & dd & O' & C & B & D & ->). assert (o' = o) as -> by congruence.
  apply fill_data_shape in F. cbn in F.
  split; [|split; [|split; [|reflexivity]]].
  - intros o0 O0. assert (o0 = o) as -> by congruence. now apply effect_write.
  - eapply wf_effect; [exact (effect_write r o d h O)|apply kept_write|exact W| |exact O]. intros o0 O0. cbn [fst] in O0 |- *. unfold write_data in *. rewrite B in *. cbn in *.
    assert (o0 = o) as -> by congruence. rewrite nth_lset_same by now apply nth_some_lt in B. eexists. split; [reflexivity|]. apply bounds_write.
    destruct (W r o O) as (_ & _ & b' & B' & I). assert (b' = b) as -> by congruence. exact I.
  - cbn [fst]. unfold write_data. rewrite B. eexists. split.
    + apply (abs_join _ _ o c (vwrite (o_view o) d b) dd); cbn; try assumption. apply nth_lset_same. now apply nth_some_lt in B.
    + apply same_spectra_intro; cbn; try reflexivity. apply vread_write. exact F.
Qed.

Lemma scale_call n r h s : wf_heap h -> abs h r = Some s -> good_call false false false r h (h_scale n r h) (scale n s).
Proof.
  intros W A. unfold h_scale. match goal with |- context [on_obj h r ?k] => destruct (on_obj_some h r s k A) as (o & O & V & ->) end.
  unfold scale. destruct (qdiv n (s_decays s)) as [f|e]; [|now apply good_same].
  destruct (abs_split h r s A) as (o' & c & b & dd & O' & C & B & D & ->). assert (o' = o) as -> by congruence.
  set (d := amap _ _). split; [|split; [|split; [|reflexivity]]].
  - intros o0 O0. assert (o0 = o) as -> by congruence. cbn [fst]. apply effect_bind; [exact O|reflexivity|reflexivity].
  - refine (wf_effect false false false r o h _ (effect_bind r o (o_with_decays o n) d h O eq_refl eq_refl) (kept_bind _ _ _ _) W _ O).
    intros o0 O0. cbn in *. rewrite nth_lset_same in O0 by now apply nth_some_lt in O. injection O0 as <-. cbn. rewrite nth_app_new.
    eexists. split; [reflexivity|exact (full_bounds d)].
  - cbn [fst]. unfold bind_data. cbn. eexists. split.
    + apply abs_join; cbn; [apply nth_lset_same; now apply nth_some_lt in O|cbn; exact C|cbn; apply nth_app_new|cbn; exact D].
    + apply same_spectra_intro; cbn [s_name s_bg s_cfg s_decays s_raw s_bipo s_rois s_data with_decays with_data]; try reflexivity. exact (vread_full d).
Qed.

Lemma rebin_call bins r h s : wf_heap h -> abs h r = Some s -> good_call true false false r h (h_rebin bins r h) (rebin bins s).
Proof.
  intros W A. unfold h_rebin. match goal with |- context [on_obj h r ?k] => destruct (on_obj_some h r s k A) as (o & O & V & ->) end.
  unfold rebin. destruct (negb _); [now apply good_same|].
  destruct (abs_split h r s A) as (o' & c & b & dd & O' & C & B & D & ->). assert (o' = o) as -> by congruence.
  destruct (W r o O) as (_ & _ & b' & B' & I). assert (b' = b) as -> by congruence.
  cbn [s_cfg s_data]. destruct (rebin_pars c bins) as [c' e]. set (h1 := set_cfg h (o_cfg o) c').
  assert (O1 : nth_error (h_objs h1) r = Some o) by exact O.
  assert (C1 : nth_error (h_cfgs h1) (o_cfg o) = Some c') by (apply nth_lset_same; now apply nth_some_lt in C).
  assert (W1 : wf_heap h1).
  { eapply wf_effect; [apply (effect_set_cfg r o), O|now apply kept_refl|exact W| |exact O]. intros o0 O0. assert (o0 = o) as -> by congruence. now exists b. }
  assert (G : forall e, good_call true false false r h (h1, Some e) (with_cfg (Spec (o_name o) (o_bg o) c (vread (o_view o) b) (o_decays o) (o_raw o) (o_bipo o) dd) c', Some e)).
  { intro e0. split; [|split; [exact W1|split; [|reflexivity]]].
    - intros o0 O0. assert (o0 = o) as -> by congruence. now apply effect_set_cfg.
    - eexists. split; [exact (abs_join h1 r o c' b dd O1 C1 B D)|]. apply same_refl. }
  destruct e as [e|]; [apply G|]. destruct (rebin_data bins (vread (o_view o) b)) as [d|e]; [|apply G].
  split; [|split; [|split; [|reflexivity]]].
  - intros o0 O0. assert (o0 = o) as -> by congruence. cbn [fst]. apply (effect_trans _ _ _ r o o h h1); auto.
    + now apply effect_set_cfg.
    + eapply effect_weaken; [apply (effect_bind r o o); auto|discriminate|auto..].
  - refine (wf_effect false false false r o h1 _ (effect_bind r o o d h1 O1 eq_refl eq_refl) (kept_bind _ _ _ _) W1 _ O1).
    intros o0 O0. cbn in *. rewrite nth_lset_same in O0 by now apply nth_some_lt in O. injection O0 as <-. cbn. rewrite nth_app_new.
    eexists. split; [reflexivity|exact (full_bounds d)].
  - cbn [fst]. unfold bind_data. cbn. eexists. split.
    + apply abs_join; cbn; [apply nth_lset_same; now apply nth_some_lt in O|cbn; exact C1|cbn; apply nth_app_new|cbn; exact D].
    + apply same_spectra_intro; cbn; try reflexivity. exact (vread_full d).
Qed.

Lemma shrink_call kw r h s : wf_heap h -> abs h r = Some s -> good_call true false false r h (h_shrink kw r h) (shrink kw s).
Proof.
  intros W A. unfold h_shrink. match goal with |- context [on_obj h r ?k] => destruct (on_obj_some h r s k A) as (o & O & V & ->) end.
  unfold shrink. destruct (shrink_check (s_cfg s) kw) as [[]|e]; [|now apply good_same].
  destruct (abs_split h r s A) as (o' & c & b & dd & O' & C & B & D & ->). assert (o' = o) as -> by congruence.
  destruct (W r o O) as (_ & _ & b' & B' & I). assert (b' = b) as -> by congruence.
  cbn [s_cfg s_data]. destruct (shrink_pars kw c) as [c' sl]. set (h1 := set_cfg h (o_cfg o) c').
  assert (O1 : nth_error (h_objs h1) r = Some o) by exact O.
  assert (C1 : nth_error (h_cfgs h1) (o_cfg o) = Some c') by (apply nth_lset_same; now apply nth_some_lt in C).
  assert (W1 : wf_heap h1).
  { eapply wf_effect; [apply (effect_set_cfg r o), O|now apply kept_refl|exact W| |exact O]. intros o0 O0. assert (o0 = o) as -> by congruence. now exists b. }
  assert (G : forall e, good_call true false false r h (h1, Some e) (with_cfg (Spec (o_name o) (o_bg o) c (vread (o_view o) b) (o_decays o) (o_raw o) (o_bipo o) dd) c', Some e)).
  { intro e0. split; [|split; [exact W1|split; [|reflexivity]]].
    - intros o0 O0. assert (o0 = o) as -> by congruence. now apply effect_set_cfg.
    - eexists. split; [exact (abs_join h1 r o c' b dd O1 C1 B D)|]. apply same_refl. }
  destruct sl as [[|sl sls]|e]; try apply G. pose proof (vslice_read (sl :: sls) (o_view o) b) as E.
  destruct (vslice (sl :: sls) (o_view o)) as [v|e] eqn:VS; destruct (aslice (sl :: sls) (vread (o_view o) b)) as [d|e']; try contradiction; [|rewrite E; apply G].
  assert (EO : effect false false false r o h1 (set_obj h1 r (o_with_data o (o_buf o) v))) by (apply effect_set_obj; auto).
  split; [|split; [|split; [|reflexivity]]].
  - intros o0 O0. assert (o0 = o) as -> by congruence. cbn [fst]. apply (effect_trans _ _ _ r o o h h1); auto.
    + now apply effect_set_cfg.
    + eapply effect_weaken; [exact EO|discriminate|auto..].
  - eapply wf_effect; [exact EO|now apply kept_refl|exact W1| |exact O1].
    intros o0 O0. cbn in *. rewrite nth_lset_same in O0 by now apply nth_some_lt in O. injection O0 as <-. cbn. exists b. split; [exact B|].
    now apply (vslice_bounds (sl :: sls) (o_view o)).
  - cbn [fst]. eexists. split.
    + apply abs_join; cbn; [apply nth_lset_same; now apply nth_some_lt in O|cbn; exact C1|cbn; exact B|cbn; exact D].
    + apply same_spectra_intro; cbn; try reflexivity. exact E.
Qed.

(** Changing attributes of the target after a call that went well. *)
Lemma then_obj wc wb wr r h x y s1 g g' : good_call wc wb wr r h x y -> abs (fst x) r = Some s1 ->
  (forall o, o_cfg (g o) = o_cfg o /\ o_rois (g o) = o_rois o /\ o_buf (g o) = o_buf o /\ o_view (g o) = o_view o) ->
  (forall o b c d, same_spectra (Spec (o_name o) (o_bg o) c (vread (o_view o) b) (o_decays o) (o_raw o) (o_bipo o) d) (fst y) ->
     same_spectra (Spec (o_name (g o)) (o_bg (g o)) c (vread (o_view o) b) (o_decays (g o)) (o_raw (g o)) (o_bipo (g o)) d) g') ->
  wf_heap h -> (exists o, nth_error (h_objs h) r = Some o) ->
  forall o1, nth_error (h_objs (fst x)) r = Some o1 -> good_call wc wb wr r h (set_obj (fst x) r (g o1), None) (g', None).
Proof.
  intros (E & W1 & (s' & A' & S') & _) A1 G1 G2 W (o & O) o1 O1. destruct x as [h1 e1]. cbn [fst] in *.
  assert (s' = s1) as -> by congruence. destruct (G1 o1) as (P1 & P2 & P3 & P4).
  assert (EO : effect false false false r o1 h1 (set_obj h1 r (g o1))) by (apply effect_set_obj; auto).
  specialize (E o O). pose proof E as E'. destruct E as [_ _ (o2 & Q1 & Q2 & Q3 & Q4) _ _ _ _ _ _]. assert (o2 = o1) as -> by congruence.
  split; [|split; [|split; [|reflexivity]]].
  - intros o0 O0. assert (o0 = o) as -> by congruence. cbn [fst]. apply (effect_trans _ _ _ r o o1 h h1); auto.
    eapply effect_weaken; [exact EO|auto..].
  - eapply wf_effect; [exact EO|now apply kept_refl|exact W1| |exact O1].
    intros o0 O0. cbn in *. rewrite nth_lset_same in O0 by now apply nth_some_lt in O1. injection O0 as <-. rewrite P3, P4.
    destruct (W1 r o1 O1) as (_ & _ & b & B & I). now exists b.
  - destruct (abs_split h1 r s1 A1) as (o3 & c & b & d & O3 & C & B & D & ->). assert (o3 = o1) as -> by congruence.
    cbn [fst]. eexists. split.
    + apply abs_join; cbn; [apply nth_lset_same; now apply nth_some_lt in O1|rewrite P1; exact C|rewrite P3; exact B|rewrite P2; exact D].
    + rewrite P4. now apply G2.
Qed.

Lemma cut_call kw r h s : wf_heap h -> abs h r = Some s -> good_call true false false r h (h_cut kw r h) (cut kw s).
Proof.
  intros W A. unfold h_cut. match goal with |- context [on_obj h r ?k] => destruct (on_obj_some h r s k A) as (o & O & V & ->) end.
  unfold cut. pose proof (shrink_call kw r h s W A) as G. destruct (h_shrink kw r h) as [h1 e1] eqn:HS, (shrink kw s) as [s1 e2] eqn:SS.
  pose proof G as (_ & _ & (s' & A' & S') & E). cbn [fst snd] in *. subst e2. destruct e1 as [e1|]; [exact G|].
  match goal with |- context [on_obj h1 r ?k] => destruct (on_obj_some h1 r s' k A') as (o1 & O1 & V1 & ->) end.
  rewrite (sum_ext s' s1 S'). destruct (qdiv (s_sum s1) (s_sum s)) as [f|e].
  2:{ destruct G as (G1 & G2 & G3 & G4). split; [exact G1|split; [exact G2|split; [exact G3|reflexivity]]]. }
  pose proof (then_obj true false false r h (h1, None) (s1, None) s' (fun o => o_with_decays o (s_decays s' * f)%Qc) (with_decays s1 (s_decays s1 * f)%Qc) G A') as T.
  apply T; auto.
  - intros o0 b c d H. meta2 S'. pose proof (same_spectra_arr _ _ H) as AA. meta H. apply same_spectra_intro; cbn in *; try congruence; exact AA.
  - now exists o.
Qed.

Lemma roi_call lo hi dim r h s : wf_heap h -> abs h r = Some s -> good_call true false true r h (h_roi lo hi dim r h) (shrink_to_roi lo hi dim s).
Proof.
  intros W A. unfold h_roi. match goal with |- context [on_obj h r ?k] => destruct (on_obj_some h r s k A) as (o & O & V & ->) end.
  unfold shrink_to_roi. set (kw := [_; _]). pose proof (shrink_call kw r h s W A) as G. destruct (h_shrink kw r h) as [h1 e1] eqn:HS, (shrink kw s) as [s1 e2] eqn:SS.
  destruct G as (G1 & W1 & (s' & A' & S') & E). cbn [fst snd] in *. subst e2.
  assert (G : forall e, good_call true false true r h (h1, e) (s1, e)).
  { intro e. split; [|split; [exact W1|split; [|reflexivity]]]; [|now exists s']. intros o0 O0. eapply effect_weaken; [apply G1, O0|auto..]. }
  destruct e1 as [e1|]; [apply G|].
  match goal with |- context [on_obj h1 r ?k] => destruct (on_obj_some h1 r s' k A') as (o1 & O1 & V1 & ->) end.
  rewrite (sum_ext s' s1 S'). destruct (qdiv (s_sum s1) (s_sum s)) as [f|e]; [|apply G].
  pose proof (same_spectra_arr _ _ S') as AA. pose proof S' as S''. meta2 S''. rewrite <- Kc, <- Ko. destruct (get_par (s_cfg s') dim) as [p|e]; [|apply G].
  set (d' := dset dim _ (s_rois s')). set (h2 := set_roid h1 (o_rois o1) d').
  assert (EO : effect false false true r o1 h1 h2) by (apply effect_set_roid; auto).
  specialize (G1 o O). pose proof G1 as E'. destruct G1 as [_ _ (o2 & Q1 & Q2 & Q3 & Q4) _ _ _ _ _ _]. assert (o2 = o1) as -> by congruence.
  destruct (abs_split h1 r s' A') as (o3 & c & b & d & O3 & C & B & D & Es). assert (o3 = o1) as -> by congruence.
  split; [|split; [|split; [|reflexivity]]].
  - intros o0 O0. assert (o0 = o) as -> by congruence. cbn [fst]. apply (effect_trans _ _ _ r o o1 h h1); auto.
    + eapply effect_weaken; [exact E'|auto..].
    + eapply effect_weaken; [exact EO|auto..].
  - eapply wf_effect; [exact EO|now apply kept_refl|exact W1| |exact O1].
    intros o0 O0. cbn in *. assert (o0 = o1) as -> by congruence.
    destruct (W1 r o1 O1) as (_ & _ & b0 & B0 & I). now exists b0.
  - cbn [fst]. eexists. split.
    + apply (abs_join h2 r o1 c b d'); cbn; auto. apply nth_lset_same. now apply nth_some_lt in D.
    + subst s'. apply same_spectra_intro; cbn in *; try congruence; exact AA.
Qed.

Lemma name_call r h s : wf_heap h -> abs h r = Some s ->
  good_call false false false r h (h_name r h) (fst (get_background_name s), outcome (snd (get_background_name s))).
Proof.
  intros W A. unfold h_name. match goal with |- context [on_obj h r ?k] => destruct (on_obj_some h r s k A) as (o & O & V & ->) end.
  destruct (get_background_name s) as [s' [x|e]] eqn:N.
  2:{ assert (s' = s) as ->. { revert N. unfold get_background_name. destruct (s_bg s) as [[|a b]|]; repeat match goal with |- context [if ?b then _ else _] => destruct b end; congruence. }
      now apply good_same. }
  cbn [fst snd outcome]. apply (then_obj false false false r h (h, None) (s, None) s (fun o => o_with_bg o (s_bg s')) s'); cbn [fst]; auto.
  - now apply good_same.
  - intros o0 b c d H. pose proof (same_spectra_arr _ _ H) as AA. meta H. cbn in *.
    assert (N' : s' = with_bg s (s_bg s')).
    { revert N. unfold get_background_name. destruct s as [? bg ? ? ? ? ? ?]; cbn. destruct bg as [[|a1 b1]|]; repeat match goal with |- context [if ?b then _ else _] => destruct b end; intro N; try discriminate; injection N; intros; subst s'; reflexivity. }
    rewrite N'. apply same_spectra_intro; cbn; try assumption; reflexivity.
  - now exists o.
Qed.

Lemma add_call r2 r h s2 s : wf_heap h -> abs h r2 = Some s2 -> abs h r = Some s -> good_call false true false r h (h_add r2 r h) (s_add s2 s).
Proof.
  intros W A2 A. unfold h_add. rewrite A2. match goal with |- context [on_obj h r ?k] => destruct (on_obj_some h r s k A) as (o & O & V & ->) end.
  unfold s_add. destruct (add_check s s2) as [[]|e]; [|now apply good_same].
  destruct (abs_split h r s A) as (o' & c & b & dd & O' & C & B & D & ->). assert (o' = o) as -> by congruence. cbn [s_data s_raw s_decays].
  destruct (W r o O) as (_ & _ & b' & B' & I). assert (b' = b) as -> by congruence.
  set (d := aplus _ _). set (h1 := write_data h o d).
  assert (H1 : h1 = set_buf h (o_buf o) (vwrite (o_view o) d b)) by (unfold h1, write_data; now rewrite B).
  assert (G : good_call false true false r h (h1, None) (with_data (Spec (o_name o) (o_bg o) c (vread (o_view o) b) (o_decays o) (o_raw o) (o_bipo o) dd) d, None)).
  { split; [|split; [|split; [|reflexivity]]].
    - intros o0 O0. assert (o0 = o) as -> by congruence. now apply effect_write.
    - eapply wf_effect; [exact (effect_write r o d h O)|apply kept_write|exact W| |exact O]. intros o0 O0. cbn [fst] in O0 |- *. fold h1 in O0 |- *. rewrite H1 in *. cbn in *.
      assert (o0 = o) as -> by congruence. rewrite nth_lset_same by now apply nth_some_lt in B. eexists. split; [reflexivity|]. exact I.
    - cbn [fst]. rewrite H1. eexists. split.
      + apply (abs_join _ _ o c (vwrite (o_view o) d b) dd); cbn; try assumption. apply nth_lset_same. now apply nth_some_lt in B.
      + apply same_spectra_intro; cbn; try reflexivity. now apply vread_write. }
  pose proof G as (_ & _ & (s' & A' & _) & _). cbn [fst] in A'.
  apply (then_obj false true false r h (h1, None) _ s' (fun o0 => o_with_decays (o_with_raw o0 (o_raw o + s_raw s2)%Z) (o_decays o + s_decays s2)%Qc) _ G A'); auto.
  - intros o0 b0 c0 d0 H. pose proof (same_spectra_arr _ _ H) as AA. meta H. cbn in *. apply same_spectra_intro; cbn; try assumption; reflexivity.
  - now exists o.
  - cbn [fst]. rewrite H1. exact O.
Qed.

(** ** New objects *)
Definition grows (h h' : heap) (o : hspec) : Prop :=
  h_objs h' = h_objs h ++ [o] /\
  (exists x, h_cfgs h' = h_cfgs h ++ x) /\ (exists x, h_bufs h' = h_bufs h ++ x) /\ (exists x, h_roid h' = h_roid h ++ x).
Lemma grows_nth {A} (l l' : list A) : (exists x, l' = l ++ x) -> forall i a, nth_error l i = Some a -> nth_error l' i = Some a.
Proof. intros [x ->] i a H. rewrite nth_app_old; [exact H|now apply nth_some_lt in H]. Qed.
Lemma grows_len {A} (l l' : list A) : (exists x, l' = l ++ x) -> length l <= length l'.
Proof. intros [x ->]. rewrite app_length. lia. Qed.
Lemma grows_abs h h' o r s : grows h h' o -> abs h r = Some s -> abs h' r = Some s.
Proof.
  intros (O & C & B & R) A. destruct (abs_split h r s A) as (o' & c & b & d & O' & C' & B' & D' & ->).
  apply abs_join; [|eapply grows_nth; eassumption..]. rewrite O, nth_app_old; [exact O'|now apply nth_some_lt in O'].
Qed.
Lemma grows_wf h h' o : grows h h' o -> wf_heap h -> wf_obj h' o -> wf_heap h'.
Proof.
  intros (O & C & B & R) W W' r o' H. rewrite O in H. destruct (Nat.lt_ge_cases r (length (h_objs h))) as [L|L].
  - rewrite nth_app_old in H by exact L. destruct (W r o' H) as (X & Y & b & Z & I). apply grows_len in C, R.
    split; [lia|]. split; [lia|]. exists b. split; [eapply grows_nth; eassumption|exact I].
  - rewrite nth_error_app2 in H by exact L. destruct (r - length (h_objs h)) as [|k]; cbn in H; [now injection H as <-|]. destruct k; discriminate.
Qed.
Definition good_new (h : heap) (x : heap * out) (y : res spectra) : Prop :=
  match y with
  | Err e => x = (h, Some e)
  | Ok s => snd x = None /\ wf_heap (fst x) /\ exists o s', grows h (fst x) o /\ abs (fst x) (length (h_objs h)) = Some s' /\ same_spectra s' s
  end.
Lemma grows_trans_cfg h c h2 o : grows (fst (new_cfg h c)) h2 o -> grows h h2 o.
Proof.
  intros (O & (x & C) & B & R). cbn in *. split; [exact O|]. split; [|split; [exact B|exact R]]. exists ([c] ++ x). now rewrite C, <- app_assoc.
Qed.
Lemma new_on_call name n cr bg h c : wf_heap h -> nth_error (h_cfgs h) cr = Some c -> good_new h (h_new_on name n cr bg h) (new_spectra name n c bg).
Proof.
  intros W C. unfold h_new_on. rewrite C. destruct (new_spectra name n c bg) as [s|e] eqn:N; [|reflexivity]. unfold new_obj. cbn.
  assert (E : s = Spec name bg c (s_data s) n 0 0 []).
  { revert N. unfold new_spectra. destruct (forallb _ _); [|discriminate]. intro N. injection N as <-. reflexivity. }
  set (o := HSpec _ _ _ _ _ _ _ _ _). set (h' := Heap _ _ _ _).
  assert (G : grows h h' o). { split; [reflexivity|]. split; [exists []; symmetry; apply app_nil_r|]. split; eexists; reflexivity. }
  assert (Wo : wf_obj h' o).
  { split; [cbn; now apply nth_some_lt in C|]. split; [cbn; rewrite app_length; cbn; lia|]. exists (s_data s). split; [apply nth_app_new|apply full_bounds]. }
  split; [reflexivity|]. split; [eapply grows_wf; eassumption|]. exists o. eexists. split; [exact G|]. split.
  - apply (abs_join h' _ o c (s_data s) []); cbn; try apply nth_app_new. exact C.
  - rewrite E at 2. apply same_spectra_intro; cbn; try reflexivity. exact (vread_full (s_data s)).
Qed.
Lemma new_call name n c bg h : wf_heap h -> good_new h (h_new name n c bg h) (new_spectra name n c bg).
Proof.
  intro W. unfold h_new. destruct (new_spectra name n c bg) as [s|e] eqn:N; [|reflexivity]. cbn [new_cfg].
  set (h1 := Heap _ _ _ _). assert (W1 : wf_heap h1).
  { intros r o H. destruct (W r o H) as (X & Y & Z). split; [cbn; rewrite app_length; lia|]. split; assumption. }
  pose proof (new_on_call name n (length (h_cfgs h)) bg h1 c W1 (nth_app_new _ _)) as G. rewrite N in G.
  destruct G as (G1 & G2 & o & s' & G3 & G4 & G5). split; [exact G1|]. split; [exact G2|]. exists o, s'. split; [|split; [exact G4|exact G5]].
  apply (grows_trans_cfg h c). exact G3.
Qed.
Lemma copy_call r h s : wf_heap h -> abs h r = Some s -> good_new h (h_copy r h) (Ok s).
Proof.
  intros W A. unfold h_copy. match goal with |- context [on_obj h r ?k] => destruct (on_obj_some h r s k A) as (o & O & V & ->) end.
  assert (G : grows h (new_obj h o) o). { split; [reflexivity|]. repeat split; exists []; symmetry; apply app_nil_r. }
  split; [reflexivity|]. split.
  - eapply grows_wf; [exact G|exact W|]. exact (W r o O).
  - exists o, s. split; [exact G|]. split; [|apply same_refl]. unfold abs. cbn. rewrite nth_app_new. exact V.
Qed.
Lemma derive_call d r h s : wf_heap h -> abs h r = Some s -> good_new h (h_derive d r h) (derive d s).
Proof.
  intros W A. unfold h_derive. match goal with |- context [on_obj h r ?k] => destruct (on_obj_some h r s k A) as (o & O & V & ->) end.
  destruct (derive d s) as [t|e] eqn:D; [|reflexivity]. unfold new_obj. cbn.
  destruct (abs_split h r s A) as (o' & c & b & dd & O' & C & B & R & E). assert (o' = o) as -> by congruence.
  set (o2 := HSpec _ _ _ _ _ _ _ _ _). set (h' := Heap _ _ _ _).
  assert (G : grows h h' o2). { split; [reflexivity|]. split; [exists []; symmetry; apply app_nil_r|]. split; [eexists; reflexivity|exists []; symmetry; apply app_nil_r]. }
  split; [reflexivity|]. split.
  - eapply grows_wf; [exact G|exact W|]. split; [cbn; now apply nth_some_lt in C|]. split; [cbn; now apply nth_some_lt in R|].
    exists (s_data t). split; [apply nth_app_new|apply full_bounds].
  - exists o2. eexists. split; [exact G|]. split.
    + apply (abs_join h' _ o2 c (s_data t) dd); cbn; try apply nth_app_new; assumption.
    + apply derive_kept in D. destruct D as (D1 & D2 & D3 & D4 & D5 & D6). subst s. cbn in *. apply same_spectra_intro; cbn; try congruence. exact (vread_full (s_data t)).
Qed.

(** ** Frame *)
Lemma effect_frame wc wb wr r o h h' r' o' s : effect wc wb wr r o h h' -> r' <> r -> nth_error (h_objs h') r' = nth_error (h_objs h) r' ->
  nth_error (h_objs h) r' = Some o' ->
  (wc = true -> o_cfg o <> o_cfg o') -> (wb = true -> o_buf o <> o_buf o') -> (wr = true -> o_rois o <> o_rois o') ->
  abs h r' = Some s -> abs h' r' = Some s.
Proof.
  intros [_ _ _ _ C _ B _ R] N O O' X Y Z A. destruct (abs_split h r' s A) as (o1 & c & b & d & O1 & C1 & B1 & D1 & ->). assert (o1 = o') as -> by congruence.
  apply abs_join.
  - congruence.
  - rewrite C; [exact C1|]. destruct wc; [right; intro E; now apply X|now left].
  - rewrite B; [exact B1| |now apply nth_some_lt in B1]. destruct wb; [right; intro E; now apply Y|now left].
  - rewrite R; [exact D1|]. destruct wr; [right; intro E; now apply Z|now left].
Qed.

(** A call on [r] seen from the whole heap. *)
Definition value_call (a : call) (h : heap) (s : spectra) : spectra * out :=
  match a with
  | CFill v kw _ => fill v kw s
  | CAdd r2 _ => match abs h r2 with Some s2 => s_add s2 s | None => (s, Some EAttributeError) end
  | CScale n _ => scale n s
  | CRebin bins _ => rebin bins s
  | CShrink kw _ => shrink kw s
  | CCut kw _ => cut kw s
  | CRoi lo hi dim _ => shrink_to_roi lo hi dim s
  | CName _ => (fst (get_background_name s), outcome (snd (get_background_name s)))
  | _ => (s, None)
  end.
Lemma target_call a r h s : target a = Some r -> wf_heap h -> abs h r = Some s -> good_call (resizes a) (adds_entries a) (records_roi a) r h (h_step a h) (value_call a h s).
Proof.
  intros T W A. destruct a; cbn in T; try discriminate; injection T as <-; cbn [h_step value_call resizes adds_entries records_roi].
  - now apply fill_call.
  - destruct (abs h r2) as [s2|] eqn:A2; [now apply add_call|]. unfold h_add. rewrite A2. now apply good_same.
  - now apply scale_call.
  - now apply rebin_call.
  - now apply shrink_call.
  - now apply cut_call.
  - now apply roi_call.
  - now apply name_call.
Qed.
Lemma no_target a r h : target a = Some r -> abs h r = None -> h_step a h = (h, Some EAttributeError).
Proof.
  intros T A. destruct a; cbn in T; try discriminate; injection T as <-; cbn [h_step];
    unfold h_fill, h_add, h_scale, h_rebin, h_shrink, h_cut, h_roi, h_name; try now apply on_obj_none.
  destruct (abs h r2); [now apply on_obj_none|reflexivity].
Qed.
Lemma new_step a h : target a = None -> wf_heap h -> (exists e, h_step a h = (h, Some e)) \/ exists o, wf_heap (fst (h_step a h)) /\ grows h (fst (h_step a h)) o.
Proof.
  intros T W. destruct a as [name n c bg|name n r bg|r|d r| | | | | | | |]; cbn in T; try discriminate; cbn [h_step].
  - pose proof (new_call name n c bg h W) as G. destruct (new_spectra name n c bg); cbn in G; [|left; eexists; exact G].
    destruct G as (_ & G & o & s' & K & _). right. exists o. auto.
  - destruct (abs h r) as [s|] eqn:A; [|left; rewrite on_obj_none by exact A; eexists; reflexivity].
    match goal with |- context [on_obj h r ?k] => destruct (on_obj_some h r s k A) as (o & O & V & ->) end.
    destruct (abs_split h r s A) as (o' & c & b & d & O' & C & _). assert (o' = o) as -> by congruence.
    pose proof (new_on_call name n (o_cfg o) bg h c W C) as G. destruct (new_spectra name n c bg); cbn in G; [|left; eexists; exact G].
    destruct G as (_ & G & o0 & s' & K & _). right. exists o0. auto.
  - destruct (abs h r) as [s|] eqn:A; [|left; unfold h_copy; rewrite on_obj_none by exact A; eexists; reflexivity].
    destruct (copy_call r h s W A) as (_ & G & o & s' & K & _). right. exists o. auto.
  - destruct (abs h r) as [s|] eqn:A; [|left; unfold h_derive; rewrite on_obj_none by exact A; eexists; reflexivity].
    pose proof (derive_call d r h s W A) as G. destruct (derive d s); cbn in G; [|left; eexists; exact G].
    destruct G as (_ & G & o & s' & K & _). right. exists o. auto.
Qed.
Lemma step_wf a h : wf_heap h -> wf_heap (fst (h_step a h)).
Proof.
  intro W. destruct (target a) as [r|] eqn:T.
  - destruct (abs h r) as [s|] eqn:A; [now destruct (target_call a r h s T W A) as (_ & G & _)|]. now rewrite (no_target a r h T A).
  - destruct (new_step a h T W) as [[e ->]|(o & G & _)]; assumption.
Qed.
Lemma step_frame a h r' o' s : wf_heap h -> target a <> Some r' -> nth_error (h_objs h) r' = Some o' ->
  (forall r o, target a = Some r -> nth_error (h_objs h) r = Some o -> unshared a o o') ->
  abs h r' = Some s -> abs (fst (h_step a h)) r' = Some s.
Proof.
  intros W N O' U A. destruct (target a) as [r|] eqn:T.
  - destruct (abs h r) as [s0|] eqn:A0; [|now rewrite (no_target a r h T A0)].
    destruct (target_call a r h s0 T W A0) as (E & _). destruct (abs_split h r s0 A0) as (o & _ & _ & _ & O & _). specialize (E o O).
    destruct (U r o eq_refl O) as (X & Y & Z). assert (N' : r' <> r) by congruence.
    eapply effect_frame; [exact E|exact N'|now apply (e_other _ _ _ _ _ _ _ E)|exact O'|exact X|exact Y|exact Z|exact A].
  - destruct (new_step a h T W) as [[e ->]|(o & _ & G)]; [exact A|]. eapply grows_abs; eassumption.
Qed.

(** ** Refinement of a step *)
Lemma agrees_nth h w r s : agrees h w -> nth_error w r = Some s -> exists s', abs h r = Some s' /\ same_spectra s' s.
Proof. intros [_ H]. apply H. Qed.
Lemma agrees_none h w r : agrees h w -> nth_error w r = None -> abs h r = None.
Proof. intros [L _] N. unfold abs. apply nth_error_None in N. rewrite <- L in N. apply nth_error_None in N. now rewrite N. Qed.
Lemma agrees_create h w x y y' : wf_heap h -> agrees h w -> good_new h x y -> res_eq same_spectra y y' ->
  agrees (fst x) (fst (create w y')) /\ snd x = snd (create w y').
Proof.
  intros W [L H] G E. destruct y as [s|e], y' as [s'|e']; cbn in E; try contradiction; cbn in G |- *.
  2:{ subst. now split. }
  destruct x as [h' e]. cbn [fst snd] in *. destruct G as (-> & W' & o & t & G & A & S). split; [|reflexivity]. split.
  - destruct G as (O & _). rewrite O, !app_length, L. reflexivity.
  - intros r u U. destruct (Nat.lt_ge_cases r (length w)) as [K|K].
    + rewrite nth_app_old in U by exact K. destruct (H r u U) as (u' & A' & S'). exists u'. split; [eapply grows_abs; eassumption|exact S'].
    + rewrite nth_error_app2 in U by exact K. destruct (r - length w) as [|k] eqn:Z; cbn in U; [|destruct k; discriminate].
      injection U as <-. assert (r = length (h_objs h)) as -> by lia. exists t. split; [exact A|]. eapply same_trans; eassumption.
Qed.
Lemma agrees_update a r h w s s' v : wf_heap h -> agrees h w -> exclusive a h -> target a = Some r -> nth_error w r = Some s -> abs h r = Some s' ->
  out_eq (value_call a h s') v ->
  agrees (fst (h_step a h)) (fst (update w r v)) /\ snd (h_step a h) = snd (update w r v).
Proof.
  intros W [L H] X T N A [E1 E2]. destruct (target_call a r h s' T W A) as (E & W' & (t & A' & S') & R). cbn [update fst snd]. split; [|congruence].
  destruct (abs_split h r s' A) as (o & _ & _ & _ & O & _). specialize (E o O). split.
  - rewrite lset_length, (e_len _ _ _ _ _ _ _ E). exact L.
  - intros r' u U. destruct (Nat.eq_dec r' r) as [->|K].
    + rewrite nth_lset_same in U by now apply nth_some_lt in N. injection U as <-. exists t. split; [exact A'|]. eapply same_trans; eassumption.
    + rewrite nth_lset_other in U by exact K. destruct (H r' u U) as (u' & Au & Su). exists u'. split; [|exact Su].
      destruct (abs_split h r' u' Au) as (o' & _ & _ & _ & O' & _). eapply step_frame; [exact W|congruence|exact O'| |exact Au].
      intros r0 o0 T0 O0. assert (r0 = r) as -> by congruence. apply (X r r' o0 o' T K O0 O').
Qed.
Lemma step_refines a h w : wf_heap h -> agrees h w -> exclusive a h ->
  agrees (fst (h_step a h)) (fst (w_step a w)) /\ snd (h_step a h) = snd (w_step a w).
Proof.
  intros W H X. destruct (target a) as [r|] eqn:T.
  - destruct (nth_error w r) as [s|] eqn:N.
    2:{ assert (E : w_step a w = (w, Some EAttributeError)).
        { destruct a; cbn in T; try discriminate; injection T as <-; cbn [w_step]; unfold on_val; rewrite ?N; try reflexivity. now destruct (nth_error w r2). }
        rewrite E, (no_target a r h T (agrees_none h w r H N)). now split. }
    destruct (agrees_nth h w r s H N) as (s' & A & S).
    assert (E : forall v, out_eq (value_call a h s') v -> w_step a w = update w r v -> agrees (fst (h_step a h)) (fst (w_step a w)) /\ snd (h_step a h) = snd (w_step a w)).
    { intros v Q ->. eapply agrees_update; eassumption. }
    destruct a; cbn in T; try discriminate; injection T as ->; cbn [w_step value_call] in E |- *; unfold on_val in *; rewrite N in *.
    + eapply E; [|reflexivity]. now apply fill_ext.
    + destruct (nth_error w r2) as [s2|] eqn:N2.
      * destruct (agrees_nth h w r2 s2 H N2) as (s2' & A2 & S2). rewrite A2 in E. eapply E; [|reflexivity]. now apply add_ext.
      * pose proof (agrees_none h w r2 H N2) as A2. cbn [h_step]. unfold h_add. rewrite A2. now split.
    + eapply E; [|reflexivity]. now apply scale_ext.
    + eapply E; [|reflexivity]. now apply rebin_ext.
    + eapply E; [|reflexivity]. now apply shrink_ext.
    + eapply E; [|reflexivity]. now apply cut_ext.
    + eapply E; [|reflexivity]. now apply roi_ext.
    + eapply E; [|reflexivity]. destruct (name_ext s' s S) as [Q1 Q2]. split; [exact Q1|]. cbn [snd]. now rewrite Q2.
  - destruct a as [name n c bg|name n r bg|r|d r| | | | | | | |]; cbn in T; try discriminate; cbn [h_step w_step].
    + eapply agrees_create; [exact W|exact H|now apply new_call|]. destruct (new_spectra name n c bg); [apply same_refl|reflexivity].
    + unfold on_val. destruct (nth_error w r) as [s|] eqn:N.
      2:{ rewrite on_obj_none by (eapply agrees_none; eassumption). now split. }
      destruct (agrees_nth h w r s H N) as (s' & A & S).
      match goal with |- context [on_obj h r ?k] => destruct (on_obj_some h r s' k A) as (o & O & V & ->) end.
      destruct (abs_split h r s' A) as (o' & c & b & d & O' & C & _ & _ & Es). assert (o' = o) as -> by congruence.
      assert (c = s_cfg s) as ->. { meta S. subst s'. exact Hc. }
      eapply agrees_create; [exact W|exact H|exact (new_on_call name n (o_cfg o) bg h (s_cfg s) W C)|]. destruct (new_spectra name n (s_cfg s) bg); [apply same_refl|reflexivity].
    + unfold on_val. destruct (nth_error w r) as [s|] eqn:N.
      2:{ unfold h_copy. rewrite on_obj_none by (eapply agrees_none; eassumption). now split. }
      destruct (agrees_nth h w r s H N) as (s' & A & S). eapply agrees_create; [exact W|exact H|exact (copy_call r h s' W A)|exact S].
    + unfold on_val. destruct (nth_error w r) as [s|] eqn:N.
      2:{ unfold h_derive. rewrite on_obj_none by (eapply agrees_none; eassumption). now split. }
      destruct (agrees_nth h w r s H N) as (s' & A & S). eapply agrees_create; [exact W|exact H|exact (derive_call d r h s' W A)|]. now apply derive_ext.
Qed.
Lemma run_refines l : forall h w, wf_heap h -> agrees h w -> all_exclusive l h ->
  agrees (fst (h_run l h)) (fst (w_run l w)) /\ snd (h_run l h) = snd (w_run l w).
Proof.
  induction l as [|a l IH]; intros h w W H X; [now split|]. cbn in X |- *. destruct X as [X1 X2].
  destruct (step_refines a h w W H X1) as [R1 R2]. pose proof (step_wf a h W) as W1.
  destruct (h_step a h) as [h1 e], (w_step a w) as [w1 e']. cbn in *. subst e'. specialize (IH h1 w1 W1 R1 X2).
  destruct (h_run l h1), (w_run l w1). cbn in *. destruct IH as [I1 I2]. split; [exact I1|congruence].
Qed.

(** ** Classes of programs that never share *)
Definition apart_bufs (h : heap) : Prop := forall r r' o o', r <> r' -> nth_error (h_objs h) r = Some o -> nth_error (h_objs h) r' = Some o' -> o_buf o <> o_buf o'.
Definition apart_refs (h : heap) : Prop := forall r r' o o', r <> r' -> nth_error (h_objs h) r = Some o -> nth_error (h_objs h) r' = Some o' ->
  o_cfg o <> o_cfg o' /\ o_buf o <> o_buf o' /\ o_rois o <> o_rois o'.
Lemma effect_refs wc wb wr r o h h' r0 o0 : effect wc wb wr r o h h' -> nth_error (h_objs h) r = Some o -> wf_heap h -> nth_error (h_objs h') r0 = Some o0 ->
  exists o1, nth_error (h_objs h) r0 = Some o1 /\ o_cfg o0 = o_cfg o1 /\ o_rois o0 = o_rois o1 /\
    (o_buf o0 = o_buf o1 \/ (r0 = r /\ length (h_bufs h) <= o_buf o0)).
Proof.
  intros [L O (o' & S1 & S2 & S3 & S4) _ _ _ _ _ _] Or W H. destruct (Nat.eq_dec r0 r) as [->|N].
  - assert (o' = o0) as -> by congruence. exists o. split; [exact Or|]. split; [exact S2|]. split; [exact S3|]. tauto.
  - rewrite O in H by exact N. exists o0. auto.
Qed.
Lemma wf_buf_lt h r o : wf_heap h -> nth_error (h_objs h) r = Some o -> o_buf o < length (h_bufs h).
Proof. intros W H. destruct (W r o H) as (_ & _ & b & B & _). now apply nth_some_lt in B. Qed.
Lemma apart_bufs_step a h : wf_heap h -> apart_bufs h -> (forall r, a <> CCopy r) -> apart_bufs (fst (h_step a h)).
Proof.
  intros W P NC. destruct (target a) as [r|] eqn:T.
  - destruct (abs h r) as [s|] eqn:A; [|rewrite (no_target a r h T A); exact P].
    destruct (target_call a r h s T W A) as (E & _). destruct (abs_split h r s A) as (o & _ & _ & _ & O & _). specialize (E o O).
    intros r1 r2 o1 o2 N H1 H2. destruct (effect_refs _ _ _ _ _ _ _ _ _ E O W H1) as (p1 & K1 & _ & _ & B1).
    destruct (effect_refs _ _ _ _ _ _ _ _ _ E O W H2) as (p2 & K2 & _ & _ & B2).
    pose proof (wf_buf_lt h r1 p1 W K1). pose proof (wf_buf_lt h r2 p2 W K2). pose proof (P r1 r2 p1 p2 N K1 K2).
    destruct B1 as [B1|[Q1 B1]], B2 as [B2|[Q2 B2]]; lia.
  - assert (F : forall h' o, grows h h' o -> length (h_bufs h) <= o_buf o -> apart_bufs h').
    { intros h' o (G & _) B r1 r2 o1 o2 N H1 H2. rewrite G in H1, H2.
      assert (Q : forall r0 o0, nth_error (h_objs h ++ [o]) r0 = Some o0 -> nth_error (h_objs h) r0 = Some o0 \/ (r0 = length (h_objs h) /\ o0 = o)).
      { intros r0 o0 H0. destruct (Nat.lt_ge_cases r0 (length (h_objs h))) as [L|L]; [left; now rewrite nth_app_old in H0|].
        rewrite nth_error_app2 in H0 by exact L. destruct (r0 - length (h_objs h)) as [|k] eqn:Z; cbn in H0; [|destruct k; discriminate].
        injection H0 as <-. right. split; [lia|reflexivity]. }
      destruct (Q r1 o1 H1) as [Z1|[Z1 ->]], (Q r2 o2 H2) as [Z2|[Z2 ->]]; [now apply (P r1 r2)| | |lia].
      - pose proof (wf_buf_lt h r1 o1 W Z1). lia.
      - pose proof (wf_buf_lt h r2 o2 W Z2). lia. }
    destruct a as [name n c bg|name n r bg|r|d r| | | | | | | |]; cbn in T; try discriminate; cbn [h_step].
    + pose proof (new_call name n c bg h W) as G. unfold h_new, h_new_on in *. destruct (new_spectra name n c bg) as [s|e] eqn:NS; [|exact P].
      cbn in *. rewrite nth_app_new in *. rewrite NS in *. cbn in *. destruct G as (_ & _ & o & s' & G & _). eapply F; [exact G|].
      destruct G as (G & _). cbn in G. apply app_inv_head in G. injection G as <-. cbn. lia.
    + destruct (abs h r) as [s|] eqn:A; [|rewrite on_obj_none by exact A; exact P].
      match goal with |- context [on_obj h r ?k] => destruct (on_obj_some h r s k A) as (o & O & V & ->) end.
      destruct (abs_split h r s A) as (o' & c & b & d & O' & C & _). assert (o' = o) as -> by congruence.
      pose proof (new_on_call name n (o_cfg o) bg h c W C) as G. unfold h_new_on in *. rewrite C in *.
      destruct (new_spectra name n c bg) as [s0|e] eqn:NS; [|exact P]. cbn in *. destruct G as (_ & _ & o0 & s' & G & _). eapply F; [exact G|].
      destruct G as (G & _). cbn in G. apply app_inv_head in G. injection G as <-. cbn. lia.
    + now destruct (NC r).
    + destruct (abs h r) as [s|] eqn:A; [|unfold h_derive; rewrite on_obj_none by exact A; exact P].
      pose proof (derive_call d r h s W A) as G. unfold h_derive in *.
      match goal with |- context [on_obj h r ?k] => destruct (on_obj_some h r s k A) as (o & O & V & E); rewrite E in * end.
      destruct (derive d s) as [t|e]; [|exact P]. cbn in *. destruct G as (_ & _ & o0 & s' & G & _). eapply F; [exact G|].
      destruct G as (G & _). cbn in G. apply app_inv_head in G. injection G as <-. cbn. lia.
Qed.
Lemma apart_refs_step a h : wf_heap h -> apart_refs h -> own_config a = true -> apart_refs (fst (h_step a h)).
Proof.
  intros W P OC. destruct (target a) as [r|] eqn:T.
  - destruct (abs h r) as [s|] eqn:A; [|rewrite (no_target a r h T A); exact P].
    destruct (target_call a r h s T W A) as (E & _). destruct (abs_split h r s A) as (o & _ & _ & _ & O & _). specialize (E o O).
    intros r1 r2 o1 o2 N H1 H2. destruct (effect_refs _ _ _ _ _ _ _ _ _ E O W H1) as (p1 & K1 & C1 & R1 & B1).
    destruct (effect_refs _ _ _ _ _ _ _ _ _ E O W H2) as (p2 & K2 & C2 & R2 & B2).
    pose proof (wf_buf_lt h r1 p1 W K1). pose proof (wf_buf_lt h r2 p2 W K2). destruct (P r1 r2 p1 p2 N K1 K2) as (P1 & P2 & P3).
    rewrite C1, C2, R1, R2. split; [exact P1|]. split; [|exact P3].
    destruct B1 as [B1|[Q1 B1]], B2 as [B2|[Q2 B2]]; lia.
  - destruct a as [name n c bg|name n r bg|r|d r| | | | | | | |]; cbn in T; try discriminate; try discriminate OC. cbn [h_step]. clear T OC.
    unfold h_new, h_new_on. destruct (new_spectra name n c bg) as [s|e] eqn:NS; [|exact P]. cbn. rewrite nth_app_new, NS. cbn.
    set (o := HSpec _ _ _ _ _ _ _ _ _). intros r1 r2 o1 o2 N H1 H2. cbn in H1, H2.
    assert (Q : forall r0 o0, nth_error (h_objs h ++ [o]) r0 = Some o0 -> nth_error (h_objs h) r0 = Some o0 \/ (r0 = length (h_objs h) /\ o0 = o)).
    { intros r0 o0 H0. destruct (Nat.lt_ge_cases r0 (length (h_objs h))) as [L|L]; [left; now rewrite nth_app_old in H0|].
      rewrite nth_error_app2 in H0 by exact L. destruct (r0 - length (h_objs h)) as [|k] eqn:Z; cbn in H0; [|destruct k; discriminate].
      injection H0 as <-. right. split; [lia|reflexivity]. }
    assert (LT : forall r0 o0, nth_error (h_objs h) r0 = Some o0 -> o_cfg o0 < length (h_cfgs h) /\ o_buf o0 < length (h_bufs h) /\ o_rois o0 < length (h_roid h)).
    { intros r0 o0 H0. pose proof (wf_buf_lt h r0 o0 W H0). destruct (W r0 o0 H0) as (X & Y & _). auto. }
    destruct (Q r1 o1 H1) as [Z1|[Z1 ->]], (Q r2 o2 H2) as [Z2|[Z2 ->]]; [now apply (P r1 r2)| | |lia].
    + destruct (LT r1 o1 Z1) as (X & Y & Z). cbn. lia.
    + destruct (LT r2 o2 Z2) as (X & Y & Z). cbn. lia.
Qed.

Lemma exclusive_own l : forall h, wf_heap h -> apart_refs h -> forallb own_config l = true -> all_exclusive l h.
Proof.
  induction l as [|a l IH]; intros h W P O; [exact I|]. cbn in O. apply andb_prop in O as [O1 O2]. split.
  - intros r r' o o' T N H H'. destruct (P r r' o o') as (X & Y & Z); auto. now split.
  - apply IH; [now apply step_wf|now apply apart_refs_step|exact O2].
Qed.
Lemma exclusive_no_resize l : forall h, wf_heap h -> apart_bufs h -> forallb no_resize l = true -> all_exclusive l h.
Proof.
  induction l as [|a l IH]; intros h W P O; [exact I|]. cbn in O. apply andb_prop in O as [O1 O2]. split.
  - intros r r' o o' T N H H'. split; [|split].
    + intro R. unfold no_resize in O1. destruct a; cbn in *; discriminate.
    + intros _. apply (P r r'); auto.
    + intro R. destruct a; cbn in *; discriminate.
  - apply IH; [now apply step_wf| |exact O2]. apply apart_bufs_step; [exact W|exact P|]. intros r ->. discriminate O1.
Qed.
Lemma empty_wf : wf_heap empty_heap. Proof. intros [|r] o H; discriminate. Qed.
Lemma empty_agrees : agrees empty_heap []. Proof. split; [reflexivity|]. intros [|r] s H; discriminate. Qed.
Lemma empty_apart : apart_refs empty_heap. Proof. intros [|r] r' o o' _ H; discriminate. Qed.
Lemma empty_bufs : apart_bufs empty_heap. Proof. intros [|r] r' o o' _ H; discriminate. Qed.
Lemma own_config_l l : forallb own_config l = true ->
  agrees (fst (h_run l empty_heap)) (fst (w_run l [])) /\ snd (h_run l empty_heap) = snd (w_run l []).
Proof. intro O. apply run_refines; [apply empty_wf|apply empty_agrees|]. apply exclusive_own; [apply empty_wf|apply empty_apart|exact O]. Qed.
Lemma no_resize_l l : forallb no_resize l = true ->
  agrees (fst (h_run l empty_heap)) (fst (w_run l [])) /\ snd (h_run l empty_heap) = snd (w_run l []).
Proof. intro O. apply run_refines; [apply empty_wf|apply empty_agrees|]. apply exclusive_no_resize; [apply empty_wf|apply empty_bufs|exact O]. Qed.
Lemma run_wf l : forall h, wf_heap h -> wf_heap (fst (h_run l h)).
Proof.
  induction l as [|a l IH]; intros h W; [exact W|]. cbn. pose proof (step_wf a h W) as W1. destruct (h_step a h) as [h1 e]. cbn in W1.
  specialize (IH h1 W1). destruct (h_run l h1). exact IH.
Qed.

(** ** What a call shows through a spectrum that shares something with its target *)
Lemma adds_keep_window a r h s o : target a = Some r -> adds_entries a = true -> abs h r = Some s -> nth_error (h_objs h) r = Some o ->
  exists o', nth_error (h_objs (fst (h_step a h))) r = Some o' /\ o_buf o' = o_buf o /\ o_view o' = o_view o.
Proof.
  intros T D A O. assert (S : forall d, h_objs (write_data h o d) = h_objs h) by (intro d; unfold write_data; destruct (nth_error (h_bufs h) (o_buf o)); reflexivity).
  destruct a; cbn in T, D; try discriminate; injection T as ->; cbn [h_step]; unfold h_fill, h_add.
  - match goal with |- context [on_obj h r ?k] => destruct (on_obj_some h r s k A) as (o1 & O1 & V & ->) end.
    assert (o1 = o) as -> by congruence. exists o. destruct (fill_data w kw s); cbn [fst]; rewrite ?S; auto.
  - destruct (abs h r2); [|exists o; auto]. match goal with |- context [on_obj h r ?k] => destruct (on_obj_some h r s k A) as (o1 & O1 & V & ->) end.
    assert (o1 = o) as -> by congruence. destruct (add_check s s0); [|exists o; auto]. eexists. cbn [fst set_obj h_objs]. rewrite S, nth_lset_same by now apply nth_some_lt in O.
    split; [reflexivity|]. cbn. auto.
Qed.
Lemma step_shared a h r r' o o' t : wf_heap h -> target a = Some r -> r' <> r -> nth_error (h_objs h) r = Some o -> nth_error (h_objs h) r' = Some o' ->
  abs h r' = Some t ->
  exists s1 t1, abs (fst (h_step a h)) r = Some s1 /\ abs (fst (h_step a h)) r' = Some t1 /\
    s_name t1 = s_name t /\ s_bg t1 = s_bg t /\ s_decays t1 = s_decays t /\ s_raw t1 = s_raw t /\ s_bipo t1 = s_bipo t /\
    s_cfg t1 = (if (o_cfg o' =? o_cfg o)%nat then s_cfg s1 else s_cfg t) /\
    s_rois t1 = (if (o_rois o' =? o_rois o)%nat then s_rois s1 else s_rois t) /\
    (adds_entries a = false \/ o_buf o' <> o_buf o -> s_data t1 = s_data t) /\
    (adds_entries a = true -> o_buf o' = o_buf o -> o_view o' = o_view o -> s_data t1 = s_data s1).
Proof.
  intros W T N O O' At. destruct (wf_view h o (W r o O)) as (c & b & d & C & B & D & _).
  pose proof (abs_join h r o c b d O C B D) as As. set (s := Spec _ _ _ _ _ _ _ _) in As.
  destruct (target_call a r h s T W As) as (E & W' & (s1 & A1 & _) & _). specialize (E o O).
  pose proof (e_other _ _ _ _ _ _ _ E r' N) as Oth. rewrite O' in Oth.
  destruct (wf_view _ o' (W' r' o' Oth)) as (c1 & b1 & d1 & C1 & B1 & D1 & _).
  pose proof (abs_join _ r' o' c1 b1 d1 Oth C1 B1 D1) as A1'.
  destruct (abs_split h r' t At) as (o2 & ct & bt & dt & O2 & Ct & Bt & Dt & ->). assert (o2 = o') as -> by congruence.
  destruct (abs_split _ r s1 A1) as (o1 & cs & bs & ds & O1 & Cs & Bs & Ds & ->).
  destruct (e_self _ _ _ _ _ _ _ E) as (o3 & Q1 & Q2 & Q3 & Q4). assert (o3 = o1) as -> by congruence.
  eexists. eexists. split; [exact A1|]. split; [exact A1'|]. cbn.
  do 5 (split; [reflexivity|]). split; [|split; [|split]].
  - destruct (Nat.eqb_spec (o_cfg o') (o_cfg o)) as [K|K]; [congruence|]. rewrite (e_cfgs _ _ _ _ _ _ _ E) in C1 by (right; exact K). congruence.
  - destruct (Nat.eqb_spec (o_rois o') (o_rois o)) as [K|K]; [congruence|]. rewrite (e_roid _ _ _ _ _ _ _ E) in D1 by (right; exact K). congruence.
  - intro K. rewrite (e_bufs _ _ _ _ _ _ _ E) in B1; [congruence|exact K|now apply nth_some_lt in Bt].
  - intros K1 K2 K3. destruct (adds_keep_window a r h s o T K1 As O) as (o4 & Z1 & Z2 & Z3). congruence.
Qed.

(** The grid search as a whole: Model/Minimise.v, get_values_rec and minimise. *)
From Coq Require Import Lia.
From Verif Require Import Model.Base Model.PyStr Model.NDArray Model.Param Model.Spectra Model.FitParam Model.Minimise.
From Verif Require Import Spec.ArraySpec Spec.SearchSpec.
From Verif Require Import Proofs.QcLemmas Proofs.NDArrayLemmas Proofs.ParamLemmas Proofs.RebinLemmas Proofs.SmearLemmas Proofs.FitParamLemmas Proofs.MinimiseLemmas.

(** ** numpy helpers *)
Lemma valid_len sh idx : valid_idx sh idx -> length idx = length sh.
Proof. induction 1; cbn; congruence. Qed.
Lemma tuple_gt_valid sh idx : valid_idx sh idx -> tuple_gt idx sh = false.
Proof.
  induction 1 as [|i n idx sh H _ IH]; [reflexivity|]. cbn [tuple_gt].
  destruct (Nat.eqb_spec i n); [lia|]. apply Nat.ltb_ge. lia.
Qed.
Lemma prefix_valid sh idx r : valid_idx sh idx -> prefix_ok idx (sh ++ r) = true.
Proof.
  induction 1 as [|i n idx sh H _ IH]; [destruct r; reflexivity|]. cbn [prefix_ok app]. rewrite IH.
  destruct (Nat.ltb_spec i n); [reflexivity|lia].
Qed.
Lemma skipn_len {A} (l r : list A) n : length l = n -> skipn n (l ++ r) = r.
Proof. intros <-. rewrite skipn_app, skipn_all, Nat.sub_diag. reflexivity. Qed.
Lemma firstn_len {A} (l r : list A) n : length l = n -> firstn n (l ++ r) = l.
Proof. intros <-. rewrite firstn_app, firstn_all, Nat.sub_diag. cbn. apply app_nil_r. Qed.
Lemma aindex_ok a sh sub idx : ashape a = sh ++ sub -> valid_idx sh idx ->
  aindex a idx = Ok (ND sub (fun j => aget a (idx ++ j))).
Proof.
  intros S V. unfold aindex. rewrite S, prefix_valid by exact V. now rewrite skipn_len by (symmetry; now apply valid_len).
Qed.
Lemma bc_to_refl sh : bc_to_rev sh sh = true.
Proof. induction sh; cbn; [reflexivity|]. now rewrite Nat.eqb_refl, IHsh. Qed.
Lemma bc_rev_refl sh : bc_rev sh sh = Ok sh.
Proof. induction sh; cbn; [reflexivity|]. rewrite IHsh. cbn. now rewrite Nat.eqb_refl. Qed.
Lemma bc_index_valid sh idx : valid_idx sh idx -> bc_index sh idx = idx.
Proof.
  intro V. unfold bc_index. rewrite (valid_len _ _ V), Nat.sub_diag. cbn [skipn].
  induction V as [|i n idx sh H _ IH]; [reflexivity|]. cbn [zip_with]. rewrite IH. f_equal.
  destruct (Nat.eqb_spec n 1); lia.
Qed.
Lemma aassign_ok a sh sub idx v : ashape a = sh ++ sub -> valid_idx sh idx -> ashape v = sub ->
  exists a', aassign a idx v = Ok a' /\ ashape a' = sh ++ sub /\
    (forall i j, valid_idx sh i -> valid_idx sub j ->
       aget a' (i ++ j) = if idx_eqb i idx then aget v j else aget a (i ++ j)).
Proof.
  intros S V Sv. unfold aassign. rewrite S, prefix_valid by exact V.
  rewrite skipn_len by (symmetry; now apply valid_len). rewrite Sv, Nat.sub_diag. cbn [drop_ones].
  rewrite bc_to_refl. eexists. split; [reflexivity|]. split; [reflexivity|].
  intros i j Hi Hj. cbn [aget]. rewrite (valid_len _ _ V), <- (valid_len _ _ Hi).
  rewrite firstn_len, skipn_len by reflexivity. destruct (idx_eqb i idx); [|reflexivity].
  cbn [zeros_like repeat app]. now rewrite bc_index_valid.
Qed.
Lemma badd_ok a b sh : ashape a = sh -> ashape b = sh ->
  exists c, badd a b = Ok c /\ ashape c = sh /\
    forall idx, valid_idx sh idx -> aget c idx = (aget a idx + aget b idx)%Qc.
Proof.
  intros Sa Sb. unfold badd, bc_shape. rewrite Sa, Sb, bc_rev_refl. cbn [rmap rbind]. rewrite rev_involutive.
  eexists. split; [reflexivity|]. split; [reflexivity|]. intros idx V. cbn [aget]. now rewrite bc_index_valid.
Qed.
Lemma sum_over_snoc sh m f :
  sum_over (sh ++ [m]) f = sum_over sh (fun idx => qsumn m (fun i => f (idx ++ [i]))).
Proof. revert f; induction sh as [|n sh IH]; intro f; cbn [sum_over app]; [reflexivity|]. apply qsumn_ext. intros i _. apply IH. Qed.
Lemma insert_at_end {A} (x : A) l : insert_at (length l) x l = l ++ [x].
Proof. induction l; cbn; [reflexivity|congruence]. Qed.
Lemma remove_at_end {A} (x : A) l : remove_at (length l) (l ++ [x]) = l.
Proof. induction l; cbn; [reflexivity|congruence]. Qed.
Lemma sum_last_step a o m : ashape a = o ++ [m] ->
  exists b, asum_axis (-1) a = Ok b /\ ashape b = o /\
    forall idx, valid_idx o idx -> aget b idx = qsumn m (fun i => aget a (idx ++ [i])).
Proof.
  intro S. unfold asum_axis, norm_axis, andim. rewrite S, app_length. cbn [length]. rewrite Nat.add_1_r.
  change ((-1 <? 0)%Z) with true. cbv beta iota. replace (-1 + Z.of_nat (Datatypes.S (length o)))%Z with (Z.of_nat (length o)) by lia.
  destruct (Z.leb_spec 0 (Z.of_nat (length o))); [|lia].
  destruct (Z.ltb_spec (Z.of_nat (length o)) (Z.of_nat (Datatypes.S (length o)))); [|lia]. cbn [andb rbind].
  rewrite Nat2Z.id. eexists. split; [reflexivity|]. unfold sum_at; cbn [ashape aget]. rewrite S, remove_at_end.
  split; [reflexivity|]. intros idx V. rewrite app_nth2, Nat.sub_diag by lia. cbn [nth].
  apply qsumn_ext. intros i _. now rewrite <- (valid_len _ _ V), insert_at_end.
Qed.
Lemma sum_last_ok : forall inner a o, ashape a = o ++ inner ->
  exists b, sum_last (length inner) a = Ok b /\ ashape b = o /\
    forall idx, valid_idx o idx -> aget b idx = sum_over inner (fun j => aget a (idx ++ j)).
Proof.
  induction inner as [|m inner IH] using rev_ind; intros a o S.
  - rewrite app_nil_r in S. exists a. cbn [length sum_last sum_over]. split; [reflexivity|]. split; [exact S|].
    intros idx _. now rewrite app_nil_r.
  - rewrite app_length. cbn [length]. rewrite Nat.add_1_r. cbn [sum_last].
    rewrite app_assoc in S. destruct (sum_last_step a _ _ S) as [b [-> [Sb Hb]]]. cbn [rbind].
    destruct (IH b o Sb) as [c [-> [Sc Hc]]]. exists c. split; [reflexivity|]. split; [exact Sc|].
    intros idx V. rewrite (Hc idx V), sum_over_snoc. apply sum_over_ext. intros j Hj.
    rewrite Hb by (apply Forall2_app; assumption). apply qsumn_ext. intros i _. now rewrite app_assoc.
Qed.

(** ** The grid of values *)
Definition points (ls : list (list Qc)) : list (list Qc * list nat) :=
  combine (combinations ls) (all_idx (map (@length Qc) ls)).
Lemma combinations_length ls : length (combinations ls) = asize (map (@length Qc) ls).
Proof.
  induction ls as [|l ls IH]; [reflexivity|]. cbn [combinations map asize fold_right].
  change (fold_right Nat.mul 1 (map (@length Qc) ls)) with (asize (map (@length Qc) ls)). rewrite <- IH.
  generalize (combinations ls) as cs. intro cs. induction l as [|v l IHl]; [reflexivity|].
  cbn [flat_map]. rewrite app_length, map_length, IHl. reflexivity.
Qed.
Lemma combine_app {A B} (a a' : list A) (b b' : list B) : length a = length b ->
  combine (a ++ a') (b ++ b') = combine a b ++ combine a' b'.
Proof. revert b; induction a as [|x a IH]; intros [|y b] H; try discriminate; [reflexivity|]. cbn. f_equal. apply IH. cbn in H. lia. Qed.
Lemma combine_map2 {A B A' B'} (f : A -> A') (h : B -> B') a b :
  combine (map f a) (map h b) = map (fun p => (f (fst p), h (snd p))) (combine a b).
Proof. revert b; induction a as [|x a IH]; intros [|y b]; [reflexivity..|]. cbn. now rewrite IH. Qed.
Lemma points_cons l ls :
  points (l :: ls) = flat_map (fun vi => map (fun p => (fst vi :: fst p, snd vi :: snd p)) (points ls)) (combine l (seq 0 (length l))).
Proof.
  unfold points. cbn [combinations map all_idx]. generalize 0 as s.
  assert (E : length (combinations ls) = length (all_idx (map (@length Qc) ls)))
    by (now rewrite combinations_length, all_idx_length).
  induction l as [|v l IH]; intro s; [reflexivity|].
  cbn [flat_map length seq combine fst snd]. rewrite combine_app by (now rewrite !map_length).
  rewrite IH. f_equal. apply combine_map2.
Qed.
Lemma points_fst ls : map fst (points ls) = combinations ls.
Proof.
  unfold points. assert (E : length (combinations ls) = length (all_idx (map (@length Qc) ls)))
    by (now rewrite combinations_length, all_idx_length).
  revert E. generalize (combinations ls), (all_idx (map (@length Qc) ls)). clear.
  intros a; induction a as [|x a IH]; intros [|y b] E; try discriminate; [reflexivity|]. cbn. f_equal. apply IH. cbn in E; lia.
Qed.
Lemma points_snd ls : map snd (points ls) = all_idx (map (@length Qc) ls).
Proof.
  unfold points. assert (E : length (combinations ls) = length (all_idx (map (@length Qc) ls)))
    by (now rewrite combinations_length, all_idx_length).
  revert E. generalize (combinations ls), (all_idx (map (@length Qc) ls)). clear.
  intros a; induction a as [|x a IH]; intros [|y b] E; try discriminate; [reflexivity|]. cbn. f_equal. apply IH. cbn in E; lia.
Qed.
(** The k-th combination has the values at the k-th position. *)
Lemma points_values ls v i : In (v, i) (points ls) ->
  valid_idx (map (@length Qc) ls) i /\ Forall2 (fun x li => nth_error (fst li) (snd li) = Some x) v (combine ls i).
Proof.
  revert v i; induction ls as [|l ls IH]; intros v i H.
  - cbn in H. destruct H as [H|[]]. injection H as <- <-. split; constructor.
  - rewrite points_cons in H. apply in_flat_map in H. destruct H as [[x k] [H1 H2]].
    apply in_map_iff in H2. destruct H2 as [[v' i'] [E H2]]. cbn [fst snd] in E. injection E as <- <-.
    destruct (IH _ _ H2) as [A B].
    assert (N : nth_error l k = Some x).
    { clear - H1. assert (G : forall s, In (x, k) (combine l (seq s (length l))) -> (s <= k)%nat /\ nth_error l (k - s) = Some x).
      { clear H1. induction l as [|y l IH]; intros s H; [destruct H|]. cbn in H. destruct H as [H|H].
        - injection H as <- <-. split; [lia|]. now rewrite Nat.sub_diag.
        - apply IH in H. destruct H as [H H']. split; [lia|]. replace (k - s)%nat with (Datatypes.S (k - Datatypes.S s)) by lia. exact H'. }
      apply G in H1. destruct H1 as [_ H1]. now rewrite Nat.sub_0_r in H1. }
    split; [cbn; constructor; [apply nth_error_Some; congruence|exact A]|].
    cbn [combine]. constructor; [exact N|exact B].
Qed.

Section S.
Variable g : fpar -> res (list Qc).
Context {St : Type}.
Variable funct : St -> list Qc -> St * res (sres * Qc).
Variable pen_fun : Qc -> Qc -> Qc -> res Qc.

Notation sst := (@sstate St).

Fixpoint run_points (pts : list (list Qc * list nat)) (st : sst) : sst * out :=
  match pts with
  | [] => (st, None)
  | (v, i) :: r => match visit_point funct v i st with
                   | (st', None) => run_points r st'
                   | (st', Some e) => (st', Some e)
                   end
  end.
Lemma run_points_app a b st :
  run_points (a ++ b) st = match run_points a st with (st', None) => run_points b st' | (st', Some e) => (st', Some e) end.
Proof.
  revert st; induction a as [|[v i] a IH]; intro st; [reflexivity|]. cbn [app run_points].
  destruct (visit_point funct v i st) as [st' [e|]]; [reflexivity|]. apply IH.
Qed.
Definition pre (vals : list Qc) (idxs : list nat) (p : list Qc * list nat) := (vals ++ fst p, idxs ++ snd p).

Lemma each_points p l ls vals idxs (rec : list Qc -> list nat -> sst -> sst * out) :
  snd (get_values g p) = Ok l -> NoDup l ->
  (forall vals idxs st, rec vals idxs st = run_points (map (pre vals idxs) (points ls)) st) ->
  forall st, each l (fun v st' => match snd (get_value_index g p v) with
                               | Err e => (st', Some e)
                               | Ok k => rec (vals ++ [v]) (idxs ++ [k]) st'
                               end) st
  = run_points (map (pre vals idxs) (points (l :: ls))) st.
Proof.
  intros G ND R. rewrite points_cons.
  assert (K : forall l1 l2, l = l1 ++ l2 -> forall st,
    each l2 (fun v st' => match snd (get_value_index g p v) with
                               | Err e => (st', Some e)
                               | Ok k => rec (vals ++ [v]) (idxs ++ [k]) st'
                               end) st
    = run_points (map (pre vals idxs) (flat_map (fun vi => map (fun p => (fst vi :: fst p, snd vi :: snd p)) (points ls))
         (combine l2 (seq (length l1) (length l2))))) st).
  2: { apply (K [] l eq_refl). }
  intros l1 l2; revert l1; induction l2 as [|v l2 IH]; intros l1 E st; [reflexivity|].
  cbn [each length seq combine flat_map fst snd]. rewrite map_app, run_points_app.
  assert (I : snd (get_value_index g p v) = Ok (length l1)).
  { destruct (value_at_index_l g p l (length l1) G ND) as [w [_ [W1 W2]]]; [rewrite E, app_length; cbn; lia|].
    rewrite E, nth_error_app2, Nat.sub_diag in W1 by lia. injection W1 as <-. exact W2. }
  rewrite I, R. rewrite map_map. unfold pre; cbn [fst snd].
  assert (M : map (fun p0 => (vals ++ v :: fst p0, idxs ++ length l1 :: snd p0)) (points ls) =
              map (fun p0 => ((vals ++ [v]) ++ fst p0, (idxs ++ [length l1]) ++ snd p0)) (points ls)).
  { apply map_ext. intro q. now rewrite <- !app_assoc. }
  rewrite M. destruct (run_points _ st) as [st' [e|]]; [reflexivity|].
  specialize (IH (l1 ++ [v])). rewrite app_length in IH. cbn [length] in IH. rewrite Nat.add_1_r in IH.
  apply IH. rewrite <- app_assoc. exact E.
Qed.
Lemma rec_points ps ls : grid_of g ps ls -> forall vals idxs st,
  get_values_rec g funct ps vals idxs st = run_points (map (pre vals idxs) (points ls)) st.
Proof.
  induction 1 as [|p l ps ls [G [ND _]] _ IH]; intros vals idxs st.
  - cbn. unfold pre; cbn. rewrite !app_nil_r. destruct (visit_point funct vals idxs st) as [st' [e|]]; reflexivity.
  - cbn [get_values_rec]. rewrite G. apply each_points; assumption.
Qed.
Lemma rec_points0 ps ls st : grid_of g ps ls ->
  get_values_rec g funct ps [] [] st = run_points (points ls) st.
Proof.
  intro H. rewrite (rec_points _ _ H). f_equal. rewrite <- (map_id (points ls)) at 2. apply map_ext. intros [a b]; reflexivity.
Qed.

(** ** Running the objective over the points *)
Section Run.
Variable per_bin : bool.
Variable spec : list nat.
Notation sub := (answer_shape per_bin spec).

Definition good (F : list nat) (gs : gsearch) : Prop :=
  gs_per_bin gs = per_bin /\ gs_spec gs = spec /\ fit_shape (gs_pars gs) = F /\
  ashape (gs_stats gs) = F ++ sub /\ ashape (gs_pen gs) = F.
Definition same_frame (a b : gsearch) : Prop :=
  gs_name a = gs_name b /\ gs_resets a = gs_resets b /\ gs_per_bin a = gs_per_bin b /\ gs_use_numpy a = gs_use_numpy b /\
  gs_pars a = gs_pars b /\ gs_spec a = gs_spec b.

Definition stored (gs : gsearch) (idx : list nat) (rp : sres * Qc) : Prop :=
  (forall j, valid_idx sub j -> aget (gs_stats gs) (idx ++ j) = content (fst rp) j) /\
  aget (gs_pen gs) idx = snd rp.
Definition unchanged (F : list nat) (a b : gsearch) (idx : list nat) : Prop :=
  (forall j, valid_idx sub j -> aget (gs_stats a) (idx ++ j) = aget (gs_stats b) (idx ++ j)) /\
  aget (gs_pen a) idx = aget (gs_pen b) idx.

Lemma visit_ok F st v i s' r pen : good F (ss_gs st) -> valid_idx F i ->
  funct (ss_obj st) v = (s', Ok (r, pen)) -> fits per_bin spec r ->
  exists g', visit_point funct v i st = (SS s' g', None) /\ good F g' /\ same_frame g' (ss_gs st) /\
    stored g' i (r, pen) /\ (forall j, valid_idx F j -> j <> i -> unchanged F g' (ss_gs st) j).
Proof.
  intros [G1 [G2 [G3 [G4 G5]]]] V E W. unfold visit_point. rewrite E.
  assert (A : exists a, (match r with
             | RArr a => Ok a
             | RNum x => if gs_per_bin (ss_gs st) then Err ETypeError else Ok (ND [] (fun _ => x))
             end) = Ok a /\ ashape a = sub /\ forall j, aget a j = content r j).
  { destruct r as [x|a]; cbn in W; [rewrite G1, W|]; eexists; (split; [reflexivity|]); split; auto. }
  destruct A as [a [-> [Sa Ca]]].
  unfold set_stat, check_bounds. rewrite G3, (tuple_gt_valid F i V). cbn [rbind].
  destruct (aassign_ok (gs_stats (ss_gs st)) F sub i a G4 V Sa) as [s1 [-> [Ss1 H1]]]. cbn [rbind].
  unfold set_penalty, check_bounds. cbn [gs_with gs_pars gs_pen]. rewrite G3, (tuple_gt_valid F i V). cbn [rbind].
  destruct (aassign_ok (gs_pen (ss_gs st)) F [] i (ND [] (fun _ => pen))) as [p1 [-> [Sp1 H2]]];
    [rewrite app_nil_r; exact G5|exact V|reflexivity|]. cbn [rbind]. rewrite app_nil_r in Sp1.
  eexists. split; [reflexivity|]. unfold good, same_frame, stored, unchanged; cbn [gs_with gs_per_bin gs_spec gs_pars gs_stats gs_pen gs_name gs_resets gs_use_numpy fst snd].
  assert (H2' : forall j, valid_idx F j -> aget p1 j = if idx_eqb j i then pen else aget (gs_pen (ss_gs st)) j).
  { intros j Hj. specialize (H2 j [] Hj ltac:(constructor)). now rewrite !app_nil_r in H2. }
  split; [auto|]. split; [repeat split|]. split; [split|].
  - intros j Hj. rewrite H1, idx_eqb_refl by assumption. apply Ca.
  - rewrite H2', idx_eqb_refl by exact V. reflexivity.
  - intros j Hj Hn. split; [intros k Hk; rewrite H1 by assumption|rewrite H2' by assumption];
      rewrite idx_eqb_neq by assumption; reflexivity.
Qed.
Lemma visit_err F st v i s' e : good F (ss_gs st) ->
  funct (ss_obj st) v = (s', Err e) -> visit_point funct v i st = (SS s' (ss_gs st), Some e).
Proof. intros _ E. unfold visit_point. now rewrite E. Qed.

Lemma run_calls F : forall pts st, good F (ss_gs st) -> Forall (valid_idx F) (map snd pts) -> NoDup (map snd pts) ->
  Forall (fun rp => fits per_bin spec (fst rp)) (snd (fst (calls funct (ss_obj st) (map fst pts)))) ->
  exists g', run_points pts st =
    (SS (fst (fst (calls funct (ss_obj st) (map fst pts)))) g', snd (calls funct (ss_obj st) (map fst pts))) /\
  good F g' /\ same_frame g' (ss_gs st) /\
  (forall k p rp, nth_error pts k = Some p -> nth_error (snd (fst (calls funct (ss_obj st) (map fst pts)))) k = Some rp ->
     stored g' (snd p) rp) /\
  (forall j, valid_idx F j -> ~ In j (map snd pts) -> unchanged F g' (ss_gs st) j).
Proof.
  induction pts as [|[v i] pts IH]; intros st G V ND W.
  - cbn. exists (ss_gs st). destruct st as [o gs]. cbn in *. split; [reflexivity|]. split; [exact G|].
    split; [repeat split|]. split; [intros [|k]; discriminate|]. intros; split; reflexivity.
  - cbn [map snd fst] in V, ND. inversion V as [|? ? Vi V']; subst. inversion ND as [|? ? Ni ND']; subst.
    cbn [map fst snd run_points calls] in W |- *.
    destruct (funct (ss_obj st) v) as [s' [[r pen]|e]] eqn:E.
    + assert (W0 : fits per_bin spec r /\ Forall (fun rp => fits per_bin spec (fst rp)) (snd (fst (calls funct s' (map fst pts))))).
      { destruct (calls funct s' (map fst pts)) as [[o' rs] e']. cbn [fst snd] in *. inversion W; auto. }
      destruct W0 as [W0 W1]. destruct (visit_ok F st v i s' r pen G Vi E W0) as [g1 [-> [G1 [F1 [S1 U1]]]]].
      destruct (IH (SS s' g1) G1 V' ND' W1) as [g' [R [G' [F' [S' U']]]]]. cbn [ss_obj ss_gs] in *.
      destruct (calls funct s' (map fst pts)) as [[o' rs] e'] eqn:C. cbn [fst snd] in *.
      exists g'. split; [exact R|]. split; [exact G'|].
      split; [destruct F' as [? [? [? [? [? ?]]]]], F1 as [? [? [? [? [? ?]]]]]; repeat split; congruence|].
      split.
      * intros [|k] p rp Hp Hr; cbn [nth_error] in Hp, Hr.
        -- injection Hp as <-. injection Hr as <-. cbn [snd]. destruct S1 as [A B], (U' i Vi Ni) as [A' B'].
           split; [intros j Hj; rewrite A' by exact Hj; apply A, Hj|rewrite B'; exact B].
        -- apply (S' k p rp Hp Hr).
      * intros j Hj Nj. cbn [In] in Nj. assert (Hn : j <> i) by (intro Z; apply Nj; left; symmetry; exact Z).
        destruct (U1 j Hj Hn) as [A B]. destruct (U' j Hj ltac:(tauto)) as [A' B'].
        split; [intros k Hk; rewrite A' by exact Hk; apply A, Hk|congruence].
    + rewrite (visit_err F st v i s' e G E). cbn [fst snd]. exists (ss_gs st). split; [reflexivity|].
      split; [exact G|]. split; [repeat split|]. split; [intros [|k]; discriminate|]. intros; split; reflexivity.
Qed.
Lemma calls_all (s : St) l o rs : calls funct s l = (o, rs, None) -> length rs = length l.
Proof.
  revert s o rs; induction l as [|a l IH]; intros s o rs H; cbn in H; [injection H as <- <-; reflexivity|].
  destruct (funct s a) as [s' [r|e]]; [|discriminate].
  destruct (calls funct s' l) as [[o' rs'] e'] eqn:C. injection H as <- <- ->. cbn. f_equal. eapply IH, C.
Qed.

Lemma total_sum_over sh f : total sh f = sum_over sh f.
Proof. unfold total, sum_where. rewrite filter_true. symmetry. apply sum_over_all. Qed.

Lemma sum_spec_ok F gs : good F gs -> exists c,
  (if gs_per_bin gs then sum_last (length (gs_spec gs)) (gs_stats gs) else Ok (gs_stats gs)) = Ok c /\
  ashape c = F /\ forall idx, valid_idx F idx -> aget c idx = total sub (fun j => aget (gs_stats gs) (idx ++ j)).
Proof.
  intros [G1 [G2 [G3 [G4 G5]]]]. rewrite G1, G2. unfold answer_shape in *. destruct per_bin.
  - destruct (sum_last_ok spec (gs_stats gs) F G4) as [c [E [S H]]]. exists c. split; [exact E|]. split; [exact S|].
    intros idx V. rewrite total_sum_over. apply H, V.
  - rewrite app_nil_r in G4. exists (gs_stats gs). split; [reflexivity|]. split; [exact G4|].
    intros idx _. rewrite total_sum_over. cbn [sum_over]. now rewrite app_nil_r.
Qed.
Lemma get_stats_ok F gs : good F gs -> exists c, get_stats gs = Ok c /\ ashape c = F /\
  forall idx, valid_idx F idx -> aget c idx = (total sub (fun j => aget (gs_stats gs) (idx ++ j)) + aget (gs_pen gs) idx)%Qc.
Proof.
  intro G. destruct (sum_spec_ok F gs G) as [c [E [S H]]]. unfold get_stats. rewrite E. cbn [rbind].
  destruct (badd_ok c (gs_pen gs) F S) as [d [-> [Sd Hd]]]; [apply G|]. exists d. split; [reflexivity|]. split; [exact Sd|].
  intros idx V. rewrite Hd, H by exact V. reflexivity.
Qed.
Lemma stored_reads F gs idx rp : good F gs -> valid_idx F idx -> stored gs idx rp -> reads gs idx (fst rp) (snd rp).
Proof.
  intros G V [A B]. pose proof G as [G1 [G2 [G3 [G4 G5]]]]. unfold reads, answer_total. rewrite G1, G2.
  assert (T : total sub (fun j => aget (gs_stats gs) (idx ++ j)) = total sub (content (fst rp))).
  { rewrite !total_sum_over. apply sum_over_ext. exact A. }
  split; [|split].
  - unfold get_raw_stat. rewrite (aindex_ok _ F sub idx G4 V). eexists. split; [reflexivity|]. split; [reflexivity|]. exact A.
  - unfold get_penalty_term_at, check_bounds. rewrite G3, (tuple_gt_valid F idx V). cbn [rbind].
    rewrite (aindex_ok _ F [] idx) by (rewrite ?app_nil_r; assumption). eexists. split; [reflexivity|]. split; [reflexivity|].
    cbn [aget]. now rewrite app_nil_r.
  - unfold get_stat, check_bounds. rewrite G3, (tuple_gt_valid F idx V). cbn [rbind].
    rewrite (aindex_ok _ F sub idx G4 V). cbn [rbind].
    rewrite (aindex_ok (gs_pen gs) F [] idx) by (rewrite ?app_nil_r; assumption).
    set (a := ND sub (fun j => aget (gs_stats gs) (idx ++ j))).
    assert (C : exists c, (if gs_per_bin gs then sum_last (length (gs_spec gs)) a else Ok a) = Ok c /\ ashape c = [] /\
                aget c [] = total sub (content (fst rp))).
    { rewrite <- T, total_sum_over. rewrite G1, G2. unfold answer_shape in *. destruct per_bin.
      - destruct (sum_last_ok spec a []) as [c [E [S H]]]; [reflexivity|]. exists c. split; [exact E|]. split; [exact S|].
        rewrite H by constructor. reflexivity.
      - exists a. repeat split. }
    destruct C as [c [-> [Sc Hc]]]. cbn [rbind].
    destruct (badd_ok c (ND [] (fun j => aget (gs_pen gs) (idx ++ j))) [] Sc eq_refl) as [d [-> [Sd Hd]]].
    exists d. split; [reflexivity|]. split; [exact Sd|]. rewrite Hd by constructor. rewrite Hc. cbn [aget].
    rewrite app_nil_r, B. reflexivity.
Qed.

Lemma record_one_ok i p l v : snd (get_values g p) = Ok l -> nth_error l i = Some v ->
  (forall v s, fp_sigma p = Some s -> exists t, pen_fun v (fp_prior p) s = Ok t) ->
  exists p', record_one g pen_fun i p = Ok p' /\ fp_best p' = Some v /\ fp_bins p' = fp_bins p /\
    fp_penalty p' = match fp_sigma p with
                    | None => Some 0%Qc
                    | Some s => match pen_fun v (fp_prior p) s with Ok t => Some t | Err _ => None end
                    end.
Proof.
  intros G N PF. unfold record_one, get_value_at.
  assert (B : fp_bins (fst (get_values g p)) = fp_bins p).
  { unfold get_values. destruct (fp_values p); [reflexivity|].
    destruct (if truthy (fp_logscale p) || truthy (fp_logdev p) then g p else _); reflexivity. }
  destruct (get_values g p) as [p1 r]. cbn [snd fst] in *. subst r. cbn [rbind].
  rewrite norm_index_nat by (apply nth_error_Some; congruence). cbn [rbind].
  rewrite (nth_error_nth l i 0%Qc N).
  destruct (fp_sigma p) as [s|]; [destruct (PF v s eq_refl) as [t ->]|]; cbn [rbind]; eexists; (split; [reflexivity|]); repeat split; assumption.
Qed.
Lemma record_best_ok ps ls pos vals : grid_of g ps ls ->
  valid_idx (map (@length Qc) ls) pos ->
  Forall2 (fun x li => nth_error (fst li) (snd li) = Some x) vals (combine ls pos) ->
  Forall (fun p => forall v s, fp_sigma p = Some s -> exists t, pen_fun v (fp_prior p) s = Ok t) ps ->
  exists ps', record_best g pen_fun pos ps = Ok ps' /\ map fp_best ps' = map Some vals /\ map fp_bins ps' = map fp_bins ps /\
   map fp_penalty ps' = zip_with (fun p v => match fp_sigma p with
                    | None => Some 0%Qc
                    | Some s => match pen_fun v (fp_prior p) s with Ok t => Some t | Err _ => None end
                    end) ps vals.
Proof.
  intro G; revert pos vals; induction G as [|p l ps ls [Gp _] _ IH]; intros pos vals V N PF.
  - inversion V; subst. cbn in N. inversion N; subst. exists []. repeat split.
  - inversion V as [|i n pos' sh' Hi V']; subst. cbn [combine] in N. inversion N as [|x li vals' r Nx N']; subst. cbn [fst snd] in Nx.
    inversion PF as [|? ? PFp PF']; subst. destruct (record_one_ok i p l x Gp Nx PFp) as [p' [E [B [Bi Pn]]]].
    destruct (IH pos' vals' V' N' PF') as [ps' [E' [B' [Bi' Pn']]]]. exists (p' :: ps').
    cbn [record_best]. rewrite E. cbn [rbind]. rewrite E'. cbn [rbind map zip_with]. rewrite B, B', Bi, Bi', Pn, Pn'. repeat split.
Qed.
End Run.

(** ** minimise *)
Lemma grid_fit_shape ps ls : grid_of g ps ls -> fit_shape ps = map (@length Qc) ls.
Proof. induction 1 as [|p l ps ls [_ [_ H]] _ IH]; [reflexivity|]. cbn. f_equal; assumption. Qed.
Lemma ready_good gs ls : grid_of g (gs_pars gs) ls -> ready gs ls ->
  good (gs_per_bin gs) (gs_spec gs) (map (@length Qc) ls) gs.
Proof. intros G [A B]. repeat split; try assumption. apply grid_fit_shape, G. Qed.

Lemma points_valid ls : Forall (valid_idx (map (@length Qc) ls)) (map snd (points ls)).
Proof. rewrite points_snd. apply Forall_forall. intros i Hi. now apply all_idx_valid. Qed.
Lemma points_nodup ls : NoDup (map snd (points ls)).
Proof. rewrite points_snd. apply all_idx_NoDup. Qed.
Lemma nth_points ls k v i : nth_error (combinations ls) k = Some v ->
  nth_error (all_idx (map (@length Qc) ls)) k = Some i -> nth_error (points ls) k = Some (v, i).
Proof.
  unfold points. generalize (combinations ls), (all_idx (map (@length Qc) ls)). clear. intros a b; revert k b.
  induction a as [|x a IH]; intros [|k] [|y b] H1 H2; try discriminate; cbn in *; [congruence|]. now apply IH.
Qed.

(** The state in which minimise leaves the objective and the two arrays. *)
Lemma minimise_frame st ls o rs e :
  let gs := ss_gs st in
  grid_of g (gs_pars gs) ls -> ready gs ls -> answers_fit gs rs ->
  calls funct (ss_obj st) (combinations ls) = (o, rs, e) ->
  exists g1, get_values_rec g funct (gs_pars gs) [] [] st = (SS o g1, e) /\
    good (gs_per_bin gs) (gs_spec gs) (map (@length Qc) ls) g1 /\ same_frame g1 gs /\
    (forall k v i rp, nth_error (points ls) k = Some (v, i) -> nth_error rs k = Some rp ->
       stored (gs_per_bin gs) (gs_spec gs) g1 i rp).
Proof.
  intros gs G R W C. rewrite (rec_points0 _ _ st G).
  assert (W' : Forall (fun rp => fits (gs_per_bin gs) (gs_spec gs) (fst rp)) (snd (fst (calls funct (ss_obj st) (map fst (points ls)))))).
  { rewrite points_fst, C. exact W. }
  destruct (run_calls (gs_per_bin gs) (gs_spec gs) (map (@length Qc) ls) (points ls) st (ready_good _ _ G R)
             (points_valid ls) (points_nodup ls) W') as [g1 [E [G1 [F1 [S1 _]]]]].
  rewrite points_fst, C in *. cbn [fst snd] in *. exists g1. split; [exact E|]. split; [exact G1|]. split; [exact F1|].
  intros k v i rp Hp Hr. apply (S1 k (v, i) rp Hp Hr).
Qed.

Lemma raised_l st ls o rs e :
  let gs := ss_gs st in
  grid_of g (gs_pars gs) ls -> ready gs ls -> answers_fit gs rs ->
  calls funct (ss_obj st) (combinations ls) = (o, rs, Some e) ->
  exists g1, minimise g funct pen_fun st = (SS o g1, Err e) /\
    (forall k i r pen, nth_error (all_idx (map (@length Qc) ls)) k = Some i -> nth_error rs k = Some (r, pen) -> reads g1 i r pen).
Proof.
  intros gs G R W C. destruct (minimise_frame st ls o rs (Some e) G R W C) as [g1 [E [G1 [F1 S1]]]].
  exists g1. unfold minimise. rewrite E. split; [reflexivity|]. intros k i r pen Hi Hr.
  assert (V : valid_idx (map (@length Qc) ls) i) by (apply all_idx_valid; eapply nth_error_In, Hi).
  destruct (nth_error (combinations ls) k) as [v|] eqn:Hv.
  - apply (stored_reads _ _ _ g1 i (r, pen) G1 V). apply (S1 k v i (r, pen)); [now apply nth_points|exact Hr].
  - exfalso. apply nth_error_None in Hv. rewrite combinations_length, <- all_idx_length in Hv.
    assert (nth_error (all_idx (map (@length Qc) ls)) k = None) by (now apply nth_error_None). congruence.
Qed.

Lemma minimise_l st ls o rs :
  let gs := ss_gs st in
  grid_of g (gs_pars gs) ls -> ready gs ls -> answers_fit gs rs ->
  calls funct (ss_obj st) (combinations ls) = (o, rs, None) ->
  Forall (fun l => l <> []) ls -> (gs_use_numpy gs = true \/ ls <> []) ->
  Forall (fun p => forall v s, fp_sigma p = Some s -> exists t, pen_fun v (fp_prior p) s = Ok t) (gs_pars gs) ->
  exists g1 k vals r pen s p,
    minimise g funct pen_fun st = (SS o g1, Ok (s, p)) /\
    length rs = length (combinations ls) /\
    (forall k i r pen, nth_error (all_idx (map (@length Qc) ls)) k = Some i -> nth_error rs k = Some (r, pen) -> reads g1 i r pen) /\
    nth_error (combinations ls) k = Some vals /\ nth_error rs k = Some (r, pen) /\
    map fp_best (gs_pars g1) = map Some vals /\
    map fp_penalty (gs_pars g1) = zip_with (fun p v => match fp_sigma p with
                    | None => Some 0%Qc
                    | Some s => match pen_fun v (fp_prior p) s with Ok t => Some t | Err _ => None end
                    end) (gs_pars gs) vals /\
    (ashape s = answer_shape (gs_per_bin gs) (gs_spec gs) /\ forall j, valid_idx (ashape s) j -> aget s j = content r j) /\
    (ashape p = [] /\ aget p [] = pen) /\
    (forall k' r' pen', nth_error rs k' = Some (r', pen') ->
       (answer_total (gs_per_bin gs) (gs_spec gs) r + pen <= answer_total (gs_per_bin gs) (gs_spec gs) r' + pen')%Qc /\
       ((k' < k)%nat -> (answer_total (gs_per_bin gs) (gs_spec gs) r + pen < answer_total (gs_per_bin gs) (gs_spec gs) r' + pen')%Qc)) /\
    ready g1 ls /\ gs_per_bin g1 = gs_per_bin gs /\ gs_spec g1 = gs_spec gs.
Proof.
  intros gs G R W C NE UN PF. destruct (minimise_frame st ls o rs None G R W C) as [g1 [E [G1 [F1 S1]]]].
  set (F := map (@length Qc) ls) in *.
  assert (PosF : positive F).
  { unfold F. clear - NE. induction NE as [|l ls H _ IH]; constructor; [|exact IH]. destruct l; [congruence|cbn; lia]. }
  destruct F1 as [F1 [F2 [F3 [F4 [F5 F6]]]]]. fold gs in E, G1, S1, F1, F2, F3, F4, F5, F6.
  destruct (get_stats_ok _ _ F g1 G1) as [m [Em [Sm Hm]]].
  assert (M : exists mv pos, (do m <- get_stats g1; if gs_use_numpy g1 then numpy_minimum m else find_minimum m) = Ok (mv, pos)
              /\ first_min F (aget m) pos mv).
  { rewrite Em. cbn [rbind]. rewrite F4. destruct (gs_use_numpy gs) eqn:U.
    - destruct (numpy_minimum_l m) as [mv [pos [E1 E2]]]; [now rewrite Sm|]. rewrite Sm in E2. eauto.
    - destruct UN as [?|UN]; [discriminate|].
      destruct (find_minimum_l m) as [mv [pos [E1 E2]]]; [rewrite Sm; unfold F; intro Z; apply map_eq_nil in Z; congruence|now rewrite Sm|].
      rewrite Sm in E2. eauto. }
  destruct M as [mv [pos [EM [Vp [Fp [L1 L2]]]]]].
  pose proof (all_idx_nth F pos Vp) as Np. set (k := ravel F pos) in *.
  pose proof (calls_all _ _ _ _ C) as Lrs.
  assert (Lk : (k < length (combinations ls))%nat) by (rewrite combinations_length; fold F; apply ravel_lt, Vp).
  destruct (nth_error (combinations ls) k) as [vals|] eqn:Ev; [|apply nth_error_None in Ev; lia].
  destruct (nth_error rs k) as [[r pen]|] eqn:Er; [|apply nth_error_None in Er; lia].
  pose proof (nth_points ls k vals pos Ev Np) as Pk.
  destruct (points_values ls vals pos (nth_error_In _ _ Pk)) as [_ PV].
  rewrite <- F5 in PF, G.
  destruct (record_best_ok (gs_pars g1) ls pos vals G Vp PV PF) as [ps' [ER [B [Bi Pn]]]].
  set (g2 := gs_with_pars g1 ps').
  assert (G2 : good (gs_per_bin gs) (gs_spec gs) F g2).
  { destruct G1 as [A1 [A2 [A3 [A4 A5]]]]. repeat split; try assumption. cbn [g2 gs_with_pars gs_pars].
    rewrite <- A3. unfold fit_shape. rewrite <- (map_map fp_bins Z.to_nat), <- (map_map fp_bins Z.to_nat (gs_pars g1)). now rewrite Bi. }
  assert (ST : forall k i r pen, nth_error (all_idx F) k = Some i -> nth_error rs k = Some (r, pen) -> stored (gs_per_bin gs) (gs_spec gs) g2 i (r, pen)).
  { intros k0 i r0 pen0 Hi Hr.
    destruct (nth_error (combinations ls) k0) as [v|] eqn:Hv.
    - apply (S1 k0 v i (r0, pen0)); [now apply nth_points|exact Hr].
    - exfalso. apply nth_error_None in Hv. rewrite combinations_length in Hv. fold F in Hv. rewrite <- all_idx_length in Hv.
      assert (nth_error (all_idx F) k0 = None) by (now apply nth_error_None). congruence. }
  assert (RD : forall k i r pen, nth_error (all_idx F) k = Some i -> nth_error rs k = Some (r, pen) -> reads g2 i r pen).
  { intros k0 i r0 pen0 Hi Hr. apply (stored_reads _ _ F g2 i (r0, pen0) G2); [apply all_idx_valid; eapply nth_error_In, Hi|].
    eapply ST; eassumption. }
  assert (VAL : forall k i r pen, nth_error (all_idx F) k = Some i -> nth_error rs k = Some (r, pen) ->
            aget m i = (answer_total (gs_per_bin gs) (gs_spec gs) r + pen)%Qc).
  { intros k0 i r0 pen0 Hi Hr. destruct (ST k0 i r0 pen0 Hi Hr) as [A1 A2].
    rewrite Hm by (apply all_idx_valid; eapply nth_error_In, Hi).
    cbn [g2 gs_with_pars gs_stats gs_pen fst snd] in A1, A2. rewrite A2. f_equal. unfold answer_total. rewrite !total_sum_over.
    apply sum_over_ext. exact A1. }
  destruct (RD k pos r pen Np Er) as [[s [Es [Ss Hs]]] [[p [Ep [Sp Hp]]] _]].
  exists g2, k, vals, r, pen, s, p.
  split. { unfold minimise. fold gs. rewrite E. cbn [ss_gs ss_obj]. rewrite EM, ER. fold g2. rewrite Es. cbn [rbind]. rewrite Ep. reflexivity. }
  split; [exact Lrs|]. split; [exact RD|]. split; [exact Ev|]. split; [exact Er|]. split; [exact B|].
  split; [rewrite <- F5; exact Pn|].
  split; [split; [rewrite Ss; destruct G2 as [-> [-> _]]; reflexivity|exact Hs]|]. split; [split; assumption|].
  split; [|split; [destruct G2 as [A1 [A2 [A3 [A4 A5]]]]; split; [rewrite A4, A1, A2; reflexivity|exact A5]|split; apply G2]].
  intros k' r' pen' Hr'. assert (Hk : (k' < length (all_idx F))%nat).
  { rewrite all_idx_length. unfold F. rewrite <- combinations_length, <- Lrs. apply nth_error_Some. congruence. }
  destruct (nth_error (all_idx F) k') as [i'|] eqn:Ei; [|apply nth_error_None in Ei; lia].
  assert (Vi : valid_idx F i') by (apply all_idx_valid; eapply nth_error_In, Ei).
  rewrite <- (VAL k pos r pen Np Er), <- (VAL k' i' r' pen' Ei Hr'). rewrite Fp. split; [apply L1, Vi|].
  intro Lt. apply L2; [exact Vi|]. destruct (idx_trich F i' pos Vi Vp) as [T|[T|T]]; [exact T| |]; exfalso.
  - subst i'. assert (k = k'); [|lia]. apply (proj1 (NoDup_nth_error (all_idx F)) (all_idx_NoDup F)); [rewrite all_idx_length; apply ravel_lt, Vp|congruence].
  - pose proof (ravel_mono F pos i' Vp Vi T) as RM. fold k in RM.
    assert (k' = ravel F i'); [|lia]. apply (proj1 (NoDup_nth_error (all_idx F)) (all_idx_NoDup F)); [lia|].
    rewrite Ei. symmetry. apply all_idx_nth, Vi.
Qed.
End S.

(** ** Reading by parameter values *)
Lemma norm_prefix_nat sh r idx : valid_idx sh idx -> norm_prefix (map Z.of_nat idx) (sh ++ r) = Ok idx.
Proof.
  induction 1 as [|i n idx sh H _ IH]; [destruct r; reflexivity|]. cbn [map norm_prefix app].
  rewrite norm_index_nat by exact H. cbn [rbind]. rewrite IH. reflexivity.
Qed.
Lemma bins_of_ok g ps ls : grid_of g ps ls -> forall idx, valid_idx (map (@length Qc) ls) idx ->
  Forall distinguishable ls -> NoDup (map fp_name ps) -> forall kw,
  (forall n v, In (n, v) (keywords ps ls idx) -> dget n kw = Some v) ->
  bins_of g ps kw = Ok (map Z.of_nat idx).
Proof.
  unfold bins_of. induction 1 as [|p l ps ls [G _] _ IH]; intros idx V D ND kw K.
  - inversion V; subst. reflexivity.
  - inversion V as [|i n idx' sh' Hi V']; subst. inversion D as [|? ? Dl D']; subst. inversion ND as [|? ? Np ND']; subst.
    cbn [rmapM map]. rewrite (K (fp_name p) (nth i l 0%Qc)) by (left; reflexivity).
    rewrite (get_bin_l g p l i G Hi) by (intros j Hj; apply Dl; lia). cbn [rbind].
    rewrite (IH idx' V' D' ND') by (intros m v Hm; apply K; right; exact Hm). reflexivity.
Qed.
Lemma dget_combine {A} ns (vs : list A) : NoDup ns -> length ns = length vs ->
  forall n v, In (n, v) (combine ns vs) -> dget n (combine ns vs) = Some v.
Proof.
  intro ND; revert vs; induction ND as [|x ns Nx _ IH]; intros [|y vs] L n v H; try discriminate; [destruct H|].
  cbn [combine dget] in *. destruct H as [H|H].
  - injection H as -> ->. now rewrite String.eqb_refl.
  - destruct (String.eqb_spec n x) as [->|]; [exfalso; apply Nx; eapply in_combine_l, H|]. apply IH; [cbn in L; lia|exact H].
Qed.
Lemma keywords_get ps ls idx : length ps = length ls -> valid_idx (map (@length Qc) ls) idx -> NoDup (map fp_name ps) ->
  forall n v, In (n, v) (keywords ps ls idx) -> dget n (keywords ps ls idx) = Some v.
Proof.
  intros L V ND. apply dget_combine; [exact ND|]. pose proof (valid_len _ _ V) as LV.
  rewrite !map_length, combine_length in *. lia.
Qed.
Lemma grid_length g ps ls : grid_of g ps ls -> length ps = length ls.
Proof. induction 1; cbn; congruence. Qed.

Lemma penalty_at_l g gs ls idx r pen :
  grid_of g (gs_pars gs) ls -> ready gs ls -> valid_idx (map (@length Qc) ls) idx ->
  Forall distinguishable ls -> NoDup (map fp_name (gs_pars gs)) -> reads gs idx r pen ->
  exists p, get_penalty_at g gs (keywords (gs_pars gs) ls idx) = Ok p /\ ashape p = [] /\ aget p [] = pen.
Proof.
  intros G [R1 R2] V D ND [_ [[p [Ep [Sp Hp]]] _]].
  unfold get_penalty_at. rewrite (bins_of_ok g _ _ G idx V D ND).
  2: { apply keywords_get; [exact (grid_length _ _ _ G)|exact V|exact ND]. }
  cbn [rbind]. rewrite R2. rewrite <- (app_nil_r (map (@length Qc) ls)), norm_prefix_nat by exact V. cbn [rbind].
  unfold get_penalty_term_at, check_bounds in Ep. rewrite (grid_fit_shape g _ _ G), (tuple_gt_valid _ _ V) in Ep.
  exists p. auto.
Qed.
Lemma raw_at_l g gs ls idx r pen :
  grid_of g (gs_pars gs) ls -> ready gs ls -> valid_idx (map (@length Qc) ls) idx ->
  Forall distinguishable ls -> NoDup (map fp_name (gs_pars gs)) -> reads gs idx r pen ->
  gs_per_bin gs = true -> hd 1 (gs_spec gs) <> 1 -> last (gs_spec gs) 1 <> 1 ->
  exists s, get_raw_stats_at g gs (keywords (gs_pars gs) ls idx) = Ok s /\ ashape s = gs_spec gs /\
     forall j, valid_idx (ashape s) j -> aget s j = content r j.
Proof.
  intros G [R1 R2] V D ND [[s [Es [Ss Hs]]] _] PB H1 H2.
  unfold get_raw_stats_at. rewrite (bins_of_ok g _ _ G idx V D ND).
  2: { apply keywords_get; [exact (grid_length _ _ _ G)|exact V|exact ND]. }
  cbn [rbind]. rewrite R1. rewrite norm_prefix_nat by exact V. cbn [rbind].
  unfold get_raw_stat in Es. rewrite Es. cbn [rbind].
  rewrite PB in Ss. cbn [answer_shape] in Ss.
  exists s. split; [|split; [exact Ss|exact Hs]].
  cbn [squeeze_front]. rewrite Ss. destruct (gs_spec gs) as [|n sp] eqn:E; [cbn in H1; congruence|].
  cbn [hd] in H1. destruct (Nat.eqb_spec n 1); [congruence|]. cbn [rbind]. unfold andim. cbn [squeeze_back]. rewrite Ss.
  replace (last (n :: sp) 0) with (last (n :: sp) 1).
  - destruct (Nat.eqb_spec (last (n :: sp) 1) 1); [contradiction|reflexivity].
  - clear. revert n; induction sp as [|m sp IH]; intro n; [reflexivity|]. cbn [last] in *. apply IH.
Qed.
Lemma raw_at_scalar_l g gs kw : gs_per_bin gs = false -> ashape (gs_stats gs) = fit_shape (gs_pars gs) ->
  is_ok (get_raw_stats_at g gs kw) = false.
Proof.
  intros PB S. unfold get_raw_stats_at. destruct (bins_of g (gs_pars gs) kw) as [b|e] eqn:EB; [|reflexivity]. cbn [rbind].
  destruct (norm_prefix b (ashape (gs_stats gs))) as [idx|e] eqn:EN; [|reflexivity]. cbn [rbind].
  destruct (aindex (gs_stats gs) idx) as [s|e] eqn:EI; [|reflexivity]. cbn [rbind].
  assert (L : length b = length (gs_pars gs)).
  { revert EB. unfold bins_of. clear. revert b. generalize (gs_pars gs) as ps. intro ps; induction ps as [|p ps IH]; intros b H; cbn in H; [injection H as <-; reflexivity|].
    destruct (dget (fp_name p) kw); [|discriminate].
    destruct (snd (fp_get_bin g p q)); [|discriminate]. cbn [rbind] in H.
    match type of H with rbind ?x _ = _ => destruct x eqn:E; [|discriminate] end. injection H as <-. cbn. f_equal. now apply IH. }
  assert (L2 : length idx = length b).
  { revert EN. clear. generalize (ashape (gs_stats gs)) as sh. intro sh; revert idx sh. induction b as [|i b IH]; intros idx sh H; cbn in H; [destruct sh; injection H as <-; reflexivity|].
    destruct sh; [discriminate|]. destruct (norm_index i n); [|discriminate]. cbn [rbind] in H.
    destruct (norm_prefix b sh) eqn:E; [|discriminate]. injection H as <-. cbn. f_equal. eapply IH, E. }
  unfold aindex in EI. destruct (prefix_ok idx (ashape (gs_stats gs))); [|discriminate]. injection EI as <-.
  assert (Z : skipn (length idx) (ashape (gs_stats gs)) = []).
  { apply skipn_all2. rewrite S. unfold fit_shape. rewrite map_length. lia. }
  cbn [squeeze_front andim ashape]. rewrite Z. reflexivity.
Qed.
Lemma raw_stats_kwargs_l gs kw p v : In p (gs_pars gs) -> dget (fp_name p) kw = Some v ->
  ashape (gs_stats gs) = fit_shape (gs_pars gs) ++ answer_shape (gs_per_bin gs) (gs_spec gs) ->
  is_ok (get_raw_stats gs kw) = false.
Proof.
  intros Hp Hd S. unfold get_raw_stats. destruct kw as [|kv kw]; [discriminate|].
  match goal with |- context [rbind ?x _] => destruct x eqn:E; [|reflexivity] end. cbn [rbind].
  assert (X : existsb (fun p => match dget (fp_name p) (kv :: kw) with Some _ => true | None => false end) (gs_pars gs) = true).
  { apply existsb_exists. exists p. split; [exact Hp|]. now rewrite Hd. }
  rewrite X. reflexivity.
Qed.
(** fresh and reset searches *)
Lemma new_ready_l g ps spec name pb un ls : grid_of g ps ls -> ready (new_search ps spec name pb un) ls.
Proof.
  intro G. unfold ready, new_search, answer_shape. cbn. rewrite (grid_fit_shape g _ _ G). destruct pb; [auto|]. now rewrite app_nil_r.
Qed.
Lemma reset_ready_l g dec gs ls gs' : grid_of g (gs_pars gs) ls -> gs_per_bin gs = true ->
  reset_grids dec gs = (gs', None) ->
  ready gs' ls /\ gs_pars gs' = gs_pars gs /\ gs_per_bin gs' = true /\ gs_spec gs' = gs_spec gs /\ gs_use_numpy gs' = gs_use_numpy gs /\
  gs_stats gs' = gs_stats (new_search (gs_pars gs) (gs_spec gs) (gs_name gs) true (gs_use_numpy gs)) /\
  gs_pen gs' = gs_pen (new_search (gs_pars gs) (gs_spec gs) (gs_name gs) true (gs_use_numpy gs)).
Proof.
  intros G PB H. unfold reset_grids in H. destruct (gs_name gs) as [n|]; [|discriminate]. injection H as <-.
  unfold ready, answer_shape; cbn. rewrite PB, (grid_fit_shape g _ _ G). repeat split.
Qed.

Lemma combinations_complete ls v : In v (combinations ls) <-> Forall2 (fun x l => In x l) v ls.
Proof.
  revert v; induction ls as [|l ls IH]; intro v; cbn [combinations].
  - split; [intros [<-|[]]; constructor|]. intro H; inversion H; left; reflexivity.
  - rewrite in_flat_map. split.
    + intros [x [Hx H]]. apply in_map_iff in H. destruct H as [w [<- Hw]]. constructor; [exact Hx|now apply IH].
    + intro H; inversion H as [|x l' w ls' Hx Hw]; subst. exists x. split; [exact Hx|]. apply in_map, IH, Hw.
Qed.
Lemma combinations_nodup ls : Forall (@NoDup Qc) ls ->
  NoDup (combinations ls) /\ length (combinations ls) = asize (map (@length Qc) ls).
Proof.
  intro H. split; [|apply combinations_length]. induction H as [|l ls Hl _ IH]; cbn [combinations]; [repeat constructor; intros []|].
  induction Hl as [|x l Nx _ IHl]; cbn [flat_map]; [constructor|]. apply NoDup_app_intro; [|exact IHl|].
  - apply FinFun.Injective_map_NoDup; [|exact IH]. intros a b E. now injection E.
  - intros w Hw Hw'. apply in_map_iff in Hw. destruct Hw as [u [<- _]]. apply in_flat_map in Hw'. destruct Hw' as [y [Hy Hw']].
    apply in_map_iff in Hw'. destruct Hw' as [u' [E _]]. injection E as -> _. contradiction.
Qed.
Lemma read_back_l : forall g St (f : St -> list Qc -> St * res (sres * Qc)) pen st ls o rs,
  grid_of g (gs_pars (ss_gs st)) ls -> ready (ss_gs st) ls -> answers_fit (ss_gs st) rs ->
  calls f (ss_obj st) (combinations ls) = (o, rs, None) ->
  Forall (fun l => l <> []) ls -> (gs_use_numpy (ss_gs st) = true \/ ls <> []) ->
  penalties_defined pen (gs_pars (ss_gs st)) ->
  exists st' m, minimise g f pen st = (st', Ok m) /\
    forall idx, valid_idx (map (@length Qc) ls) idx ->
    exists k v r p, nth_error (all_idx (map (@length Qc) ls)) k = Some idx /\
      nth_error (combinations ls) k = Some v /\ nth_error rs k = Some (r, p) /\
      Forall2 (fun x li => nth_error (fst li) (snd li) = Some x) v (combine ls idx) /\
      reads (ss_gs st') idx r p.
Proof.
  intros g St f pen st ls o rs G R W C NE UN PF.
  destruct (minimise_l g f pen st ls o rs G R W C NE UN PF) as (gs' & k & vals & r & pn & s & p & H1 & H2 & H3 & _).
  exists (SS o gs'), (s, p). split; [exact H1|]. intros idx V. cbn [ss_gs].
  pose proof (all_idx_nth _ _ V) as N. set (q := ravel _ idx) in *.
  assert (L : (q < length (combinations ls))%nat) by (rewrite combinations_length; apply ravel_lt, V).
  destruct (nth_error (combinations ls) q) as [v|] eqn:Ev; [|apply nth_error_None in Ev; lia].
  destruct (nth_error rs q) as [[r' p']|] eqn:Er; [|apply nth_error_None in Er; lia].
  exists q, v, r', p'. split; [exact N|]. split; [exact Ev|]. split; [exact Er|]. split; [|eapply H3; eassumption].
  apply (points_values ls v idx). eapply nth_error_In, nth_points; eassumption.
Qed.

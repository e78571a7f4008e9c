(** Projections of the statistics of a grid search. *)
From Coq Require Import Lia Sorting.Sorted.
From Verif Require Import Model.Base Model.PyStr Model.NDArray Model.Param Model.Config Model.Spectra Model.FitParam Model.Minimise Model.GridProject.
From Verif Require Import Spec.AxisSpec Spec.ArraySpec Spec.SpectraSpec Spec.SearchSpec Spec.GridPointSpec Spec.GridProjectSpec.
From Verif Require Import Proofs.QcLemmas Proofs.NDArrayLemmas Proofs.ProjectLemmas Proofs.NDProjectLemmas Proofs.MinimiseLemmas Proofs.SearchLemmas Proofs.GridPointLemmas.

Lemma named_iff ps n : named ps n = true <-> In n ps.
Proof. unfold named. rewrite existsb_exists. split; [intros (x & I & E); apply String.eqb_eq in E; congruence|intro I; exists n; split; [exact I|apply String.eqb_refl]]. Qed.
Lemma named_dec ps n : named ps n = (if in_dec string_dec n ps then true else false).
Proof. destruct (in_dec string_dec n ps) as [I|I]; [now apply named_iff|]. destruct (named ps n) eqn:E; [apply named_iff in E; contradiction|reflexivity]. Qed.
Lemma chained_ok gl g sn : In "itertools"%string gl -> chained gl g sn = Ok (map fp_name (gs_pars g) ++ sn)%list.
Proof. intro H. unfold chained. now rewrite (proj2 (named_iff gl "itertools"%string) H). Qed.
Lemma check_ok gl g sn ps : In "itertools"%string gl -> (forall p, In p ps -> In p (map fp_name (gs_pars g) ++ sn)) -> check_names gl g sn ps = Ok tt.
Proof.
  intro B. induction ps as [|p ps IH]; intro H; [reflexivity|]. cbn [check_names]. rewrite (chained_ok gl g sn B). cbn [rbind].
  rewrite (proj2 (named_iff _ p)) by (apply H; now left). apply IH. intros q I. apply H. now right.
Qed.
Lemma check_err gl g sn ps p : In "itertools"%string gl -> In p ps -> ~ In p (map fp_name (gs_pars g) ++ sn) -> check_names gl g sn ps = Err EIndexError.
Proof.
  intros B. induction ps as [|q ps IH]; intros I N; [destruct I|]. cbn [check_names]. rewrite (chained_ok gl g sn B). cbn [rbind]. destruct (named _ q) eqn:E; [|reflexivity].
  destruct I as [-> |I]; [apply named_iff in E; contradiction|auto].
Qed.

(** The loop without the counter is that of spectra. *)
Lemma others_loop ps axes : forall names axis a,
  (forall k, k < length names -> existsb (Nat.eqb (axis + k)) axes = named ps (nth k names ""%string)) ->
  sum_others ps names axis a = nd_project_loop axes (seq axis (length names)) a.
Proof.
  induction names as [|n names IH]; intros axis a H; [reflexivity|]. cbn [sum_others length seq nd_project_loop].
  pose proof (H 0 ltac:(cbn; lia)) as H0. rewrite Nat.add_0_r in H0. cbn [nth] in H0. rewrite H0.
  assert (IH' : forall b, sum_others ps names (S axis) b = nd_project_loop axes (seq (S axis) (length names)) b).
  { intro b. apply IH. intros k L. specialize (H (S k) ltac:(cbn; lia)). cbn [nth] in H. rewrite <- H. f_equal. f_equal. lia. }
  destruct (named ps n); [apply IH'|]. destruct (asum_axis (Z.of_nat axis) a); [apply IH'|reflexivity].
Qed.
Lemma listed_in names ps k : k < length names -> existsb (Nat.eqb k) (listed_axes names ps) = named ps (nth k names ""%string).
Proof.
  intro L. rewrite named_dec. unfold listed_axes. destruct (in_dec string_dec (nth k names ""%string) ps) as [I|I].
  - apply existsb_eqb_iff. apply filter_In. split; [apply in_seq; lia|]. now destruct (in_dec string_dec (nth k names ""%string) ps).
  - destruct (existsb (Nat.eqb k) _) eqn:E; [|reflexivity]. apply existsb_eqb_iff in E. apply filter_In in E as (_ & E). destruct (in_dec string_dec (nth k names ""%string) ps); [contradiction|discriminate].
Qed.
Lemma others_char ps names base :
  let act := drift 0 (axes_except (length names) (listed_axes names ps)) in
  (Forall (fun x => x < andim base) act -> exists a, sum_others ps names 0 base = Ok a /\
     is_marginal (ashape base) (aget base) (axes_except (andim base) act) (ashape a) (aget a)) /\
  (Exists (fun x => andim base <= x) act -> sum_others ps names 0 base = Err EAxisError).
Proof.
  intro act. rewrite (others_loop ps (listed_axes names ps)) by (intros k L; now apply listed_in).
  set (n := andim base).
  assert (H0 : holds base (dmask [] n) base).
  { replace (dmask [] n) with (repeat true (andim base)); [apply holds_all|].
    unfold dmask, n. generalize 0. generalize (andim base). clear. induction n as [|n IH]; intro i; cbn; [reflexivity|]. f_equal. apply IH. }
  destruct (loop_general base (listed_axes names ps) (seq 0 (length names)) [] base n eq_refl H0) as [G1 G2].
  - constructor.
  - intros d [].
  - intros d i [].
  - apply seq_sorted.
  - cbn [length] in *. split; [|exact G2]. intro FA. destruct (G1 FA) as (a & Ea & Ha). change (drift 0 _) with act in Ha.
    exists a. split; [exact Ea|]. rewrite app_nil_r in Ha.
    assert (Lm : length (dmask (rev act) n) = andim base) by (rewrite dmask_length; reflexivity).
    destruct (holds_marginal base _ a Lm Ha) as (A & B). unfold positions, dmask in A, B. rewrite positions_dmask in A, B.
    assert (E : filter (notin (rev act)) (seq 0 n) = axes_except n act).
    { unfold axes_except. apply filter_ext_in. intros x _. apply (notin_perm (rev act) act x). intro y. symmetry. apply in_rev. }
    rewrite E in A, B. split; assumption.
Qed.

(** The loop with the counter. *)
Lemma counted_loop ps base : forall names done rest axis counter a,
  holds base (done ++ repeat true (length names + rest)) a -> length done + (length names + rest) = andim base -> kept done + counter = axis ->
  exists b, sum_others_counted ps names axis counter a = Ok b /\ holds base (done ++ map (named ps) names ++ repeat true rest) b.
Proof.
  induction names as [|n names IH]; intros done rest axis counter a H L K; cbn [sum_others_counted length map app Nat.add repeat] in *.
  - exists a. auto.
  - destruct (named ps n) eqn:E.
    + destruct (IH (done ++ [true]) rest (S axis) counter a) as (b & Eb & Hb).
      * now rewrite <- app_assoc.
      * rewrite app_length. cbn. lia.
      * rewrite kept_app. unfold kept at 2. cbn. lia.
      * exists b. split; [exact Eb|]. now rewrite <- app_assoc in Hb.
    + replace (Z.of_nat axis - Z.of_nat counter)%Z with (Z.of_nat (kept done)) by lia.
      destruct (holds_axis base (done ++ true :: repeat true (length names + rest)) a (kept done)) as (a1 & E1 & H1).
      * rewrite app_length. cbn. rewrite repeat_length. lia.
      * exact H.
      * rewrite kept_app. unfold kept at 3. cbn [filter length]. lia.
      * rewrite E1. cbn [rbind]. rewrite clear_at in H1. destruct (IH (done ++ [false]) rest (S axis) (S counter) a1) as (b & Eb & Hb).
        { now rewrite <- app_assoc. } { rewrite app_length. cbn. lia. } { rewrite kept_app. unfold kept at 2. cbn. lia. }
        exists b. split; [exact Eb|]. now rewrite <- app_assoc in Hb.
Qed.
Lemma counted_app ps : forall l l' axis counter a, sum_others_counted ps (l ++ l') axis counter a =
  rbind (sum_others_counted ps l axis counter a) (sum_others_counted ps l' (axis + length l) (counter + length (filter (fun n => negb (named ps n)) l))).
Proof.
  induction l as [|n l IH]; intros l' axis counter a; cbn [app sum_others_counted filter length].
  - cbn [rbind]. now rewrite !Nat.add_0_r.
  - destruct (named ps n); cbn [negb length].
    + rewrite IH. now rewrite Nat.add_succ_r, <- Nat.add_succ_l.
    + destruct (asum_axis _ a) as [b|e]; [|reflexivity]. cbn [rbind]. rewrite IH. now rewrite !Nat.add_succ_r.
Qed.
Lemma counted_all ps : forall l axis counter a, (forall n, In n l -> In n ps) -> sum_others_counted ps l axis counter a = Ok a.
Proof.
  induction l as [|n l IH]; intros axis counter a H; [reflexivity|]. cbn [sum_others_counted]. rewrite (proj2 (named_iff ps n)) by (apply H; now left). apply IH. intros; apply H; now right.
Qed.
Lemma counted_err ps n : forall l axis counter a, In n l -> ~ In n ps -> counter <= axis -> andim a + counter <= axis -> sum_others_counted ps l axis counter a = Err EAxisError.
Proof.
  induction l as [|m l IH]; intros axis counter a I N C D; [destruct I|]. cbn [sum_others_counted]. destruct (named ps m) eqn:E.
  - destruct I as [-> |I]; [apply named_iff in E; contradiction|]. apply IH; auto; lia.
  - replace (asum_axis (Z.of_nat axis - Z.of_nat counter) a) with (@Err ndarray EAxisError); [reflexivity|]. symmetry. unfold asum_axis, norm_axis.
    destruct (Z.ltb_spec (Z.of_nat axis - Z.of_nat counter) 0); [lia|]. destruct (Z.leb_spec 0 (Z.of_nat axis - Z.of_nat counter)); [|lia].
    destruct (Z.ltb_spec (Z.of_nat axis - Z.of_nat counter) (Z.of_nat (andim a))); [lia|]. reflexivity.
Qed.
Lemma raw_stats_all g : grid_shaped g -> exists s, get_raw_stats g [] = Ok s /\ ashape s = fit_shape (gs_pars g) /\
  forall i, valid_idx (fit_shape (gs_pars g)) i -> aget s i = point_total g i.
Proof.
  intros (S1 & S2). unfold get_raw_stats, point_total. destruct (gs_per_bin g); cbn [answer_shape] in *.
  - unfold shape_eqb. rewrite (proj2 (idx_eqb_true _ _) S1). destruct (sum_last_ok (gs_spec g) _ _ S1) as (s & -> & Ss & Gs). cbn [rbind]. exists s. split; [reflexivity|]. split; [exact Ss|].
    intros i V. rewrite (Gs i V), total_sum_over. reflexivity.
  - rewrite app_nil_r in S1. assert (X : exists s, (if shape_eqb (ashape (gs_stats g)) (fit_shape (gs_pars g) ++ gs_spec g) then sum_last (length (gs_spec g)) (gs_stats g) else Ok (gs_stats g)) = Ok s /\ s = gs_stats g).
    { exists (gs_stats g). split; [|reflexivity]. destruct (shape_eqb _ _) eqn:E; [|reflexivity]. unfold shape_eqb in E. apply idx_eqb_true in E. rewrite S1 in E.
      apply (f_equal (@length nat)) in E. rewrite app_length in E. destruct (gs_spec g); [reflexivity|cbn in E; lia]. }
    destruct X as (s & -> & ->). cbn [rbind]. exists (gs_stats g). split; [reflexivity|]. split; [exact S1|]. intros i V. rewrite total_sum_over. cbn [sum_over]. now rewrite app_nil_r.
Qed.
Lemma marginal_ext sh f f' axes key : (forall i, valid_idx sh i -> f i = f' i) -> marginal sh f axes key = marginal sh f' axes key.
Proof.
  intro H. unfold marginal. rewrite !sum_where_over. apply sum_over_ext. intros i V. now rewrite (H i V).
Qed.
Lemma positions_named ps names : positions (map (named ps) names) = listed_axes names ps.
Proof.
  unfold positions, listed_axes. assert (G : forall l pre, positions_from (length pre) (map (named ps) l) =
    filter (fun i => if in_dec string_dec (nth i (pre ++ l) ""%string) ps then true else false) (seq (length pre) (length l))).
  { induction l as [|n l IH]; intros pre; [reflexivity|]. cbn [map positions_from length seq filter]. specialize (IH (pre ++ [n])). rewrite app_length, <- app_assoc in IH. cbn [length app] in IH. rewrite Nat.add_1_r in IH.
    rewrite app_nth2, Nat.sub_diag by lia. cbn [nth]. rewrite named_dec. destruct (in_dec string_dec n ps); rewrite IH; reflexivity. }
  apply (G names []).
Qed.
Lemma project_stats_l gl g sn ps : In "itertools"%string gl -> grid_shaped g -> (forall p, In p ps -> In p (map fp_name (gs_pars g) ++ sn)) ->
  ((forall n, In n sn -> In n ps) -> exists a, nd_project_stats gl g sn ps = Ok a /\
     is_marginal (fit_shape (gs_pars g)) (point_total g) (listed_axes (map fp_name (gs_pars g)) ps) (ashape a) (aget a)) /\
  (forall n, In n sn -> ~ In n ps -> nd_project_stats gl g sn ps = Err EAxisError).
Proof.
  intros B_ G Kn. unfold nd_project_stats. rewrite (check_ok _ _ _ _ B_ Kn), (chained_ok _ _ _ B_). cbn [rbind]. destruct (raw_stats_all g G) as (s & -> & Ss & Gs). cbn [rbind]. rewrite counted_app.
  set (F := map fp_name (gs_pars g)). assert (LF : length F = andim s) by (unfold F, andim; rewrite Ss; unfold fit_shape; now rewrite !map_length).
  destruct (counted_loop ps s F [] 0 0 0 s) as (b & Eb & Hb).
  - cbn [app]. rewrite Nat.add_0_r, LF. apply holds_all.
  - cbn. lia.
  - reflexivity.
  - rewrite Eb. cbn [rbind app repeat] in *. rewrite app_nil_r in Hb. assert (Lm : length (map (named ps) F) = andim s) by (now rewrite map_length).
    destruct (holds_marginal s _ b Lm Hb) as (A & B). rewrite positions_named in A, B. split.
    + intro Al. rewrite (counted_all ps sn _ _ b Al). exists b. split; [reflexivity|]. rewrite Ss in A, B. split; [exact A|]. intros key V. rewrite (B key V). apply marginal_ext. exact Gs.
    + intros n I N. apply (counted_err ps n); auto; cbn [Nat.add].
      * pose proof (filter_split_length (named ps) F) as X. cbn beta in X. lia.
      * assert (D : andim b = length (filter (named ps) F)).
        { destruct Hb as (Sb & _). unfold andim. rewrite Sb, select_length by exact Lm. unfold kept. clear. induction F as [|x l IH]; [reflexivity|]. cbn. destruct (named ps x); cbn; now rewrite IH. }
        rewrite D. rewrite (filter_split_length (named ps) F). lia.
Qed.
Lemma project_stat_l gl g sn ps idx : In "itertools"%string gl -> (forall p, In p ps -> In p (map fp_name (gs_pars g) ++ sn)) ->
  let names := (map fp_name (gs_pars g) ++ sn)%list in
  let rank := (length (ashape (gs_stats g)) - length idx)%nat in
  let act := drift 0 (axes_except (length names) (listed_axes names ps)) in
  (inside (ashape (gs_stats g)) idx ->
    (Forall (fun x => x < rank) act -> exists a, nd_project_stat gl g sn idx ps = Ok a /\
       is_marginal (skipn (length idx) (ashape (gs_stats g))) (fun j => aget (gs_stats g) (idx ++ j)) (axes_except rank act) (ashape a) (aget a)) /\
    (Exists (fun x => rank <= x) act -> nd_project_stat gl g sn idx ps = Err EAxisError)) /\
  (~ inside (ashape (gs_stats g)) idx -> nd_project_stat gl g sn idx ps = Err EIndexError).
Proof.
  intros B_ Kn names rank act. unfold nd_project_stat. rewrite (check_ok _ _ _ _ B_ Kn), (chained_ok _ _ _ B_). cbn [rbind]. fold names. split; intro I.
  - unfold get_raw_stat, aindex. rewrite (proj2 (prefix_inside idx (ashape (gs_stats g))) I). cbn [rbind]. set (base := ND _ _).
    pose proof (others_char ps names base) as X. cbv zeta in X. fold act in X. replace (andim base) with rank in X by (unfold andim, base; cbn [ashape]; now rewrite skipn_length). exact X.
  - rewrite (proj2 (raw_l g idx) I). reflexivity.
Qed.
Lemma others_all ps : forall l axis a, (forall n, In n l -> In n ps) -> sum_others ps l axis a = Ok a.
Proof.
  induction l as [|n l IH]; intros axis a H; [reflexivity|]. cbn [sum_others]. rewrite (proj2 (named_iff ps n)) by (apply H; now left). apply IH. intros; apply H; now right.
Qed.
Lemma project_stat_all_l gl g sn ps idx : In "itertools"%string gl -> (forall p, In p ps <-> In p (map fp_name (gs_pars g) ++ sn)) -> inside (ashape (gs_stats g)) idx ->
  exists a, nd_project_stat gl g sn idx ps = Ok a /\ ashape a = skipn (length idx) (ashape (gs_stats g)) /\ forall j, aget a j = aget (gs_stats g) (idx ++ j).
Proof.
  intros B_ H I. unfold nd_project_stat. rewrite (check_ok _ _ _ _ B_ (fun p => proj1 (H p))), (chained_ok _ _ _ B_). cbn [rbind]. unfold get_raw_stat, aindex. rewrite (proj2 (prefix_inside idx (ashape (gs_stats g))) I). cbn [rbind].
  rewrite others_all by (intros n In_; now apply H). eexists. split; [reflexivity|]. now split.
Qed.

Lemma project_none_l g sn ps idx : grid_shaped g ->
  nd_project_stats module_names g sn ps = Err EException /\
  nd_project_stat module_names g sn idx ps = Err (if ps then (if prefix_ok idx (ashape (gs_stats g)) then EException else EIndexError) else EException).
Proof.
  intro G. unfold nd_project_stats, nd_project_stat. destruct ps as [|p ps]; [|split; reflexivity]. cbn [check_names rbind]. split.
  - destruct (raw_stats_all g G) as (s & -> & _). reflexivity.
  - unfold get_raw_stat, aindex. now destruct (prefix_ok idx _).
Qed.

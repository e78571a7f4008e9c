(** Proofs for C74. *)
From Coq Require Import Lia.
From Verif Require Import Model.Base Model.PyStr Model.NDArray Model.Param Model.Config Model.Spectra Model.FitParam Model.Minimise.
From Verif Require Import Model.FitConfig Model.ConfigFile Model.Store Model.Plot Model.Results.
From Verif Require Import Spec.ArraySpec Spec.SearchSpec Spec.PlotSpec Spec.FitPictureSpec.
From Verif Require Import Proofs.QcLemmas Proofs.DictLemmas Proofs.NDArrayLemmas Proofs.RebinLemmas Proofs.SmearLemmas Proofs.FitParamLemmas Proofs.MinimiseLemmas Proofs.OpsLemmas Proofs.ProjectLemmas Proofs.SearchLemmas Proofs.LimitLemmas Proofs.PlotLemmas Proofs.ResultsLemmas.
Local Open Scope nat_scope.

Lemma shape_eqb_refl s : shape_eqb s s = true.
Proof. unfold shape_eqb. induction s as [|n s IH]; [reflexivity|]. cbn. rewrite Nat.eqb_refl. exact IH. Qed.
Section G.
Variables (lg : fpar -> res (list Qc)) (f : fresults) (ls : list (list Qc)) (R : list nat -> sres) (P : list nat -> Qc).
Hypothesis G : grid_results lg f ls R P.
Let gs := fr_search f.
Let F := map (@length Qc) ls.

Lemma g_good : good (gs_per_bin gs) (gs_spec gs) F gs.
Proof. destruct G as (_ & _ & _ & Gr & Rd & _). apply (ready_good lg); assumption. Qed.
Lemma g_content idx j : valid_idx F idx -> valid_idx (answer_shape (gs_per_bin gs) (gs_spec gs)) j ->
  aget (gs_stats gs) (idx ++ j) = content (R idx) j.
Proof.
  intros V J. destruct G as (_ & _ & _ & _ & [R1 R2] & _ & Rd). destruct (Rd idx V) as ((s & Es & Ss & Hs) & _).
  unfold get_raw_stat in Es. rewrite (aindex_ok _ F _ idx R1 V) in Es. injection Es as <-. apply (Hs j J).
Qed.
Lemma g_pen idx : valid_idx F idx -> aget (gs_pen gs) idx = P idx.
Proof.
  intros V. destruct G as (_ & _ & _ & Gr & [R1 R2] & _ & Rd). destruct (Rd idx V) as (_ & (p & Ep & Sp & Hp) & _).
  unfold get_penalty_term_at, check_bounds in Ep. rewrite (grid_fit_shape lg _ _ Gr) in Ep. fold F in Ep. rewrite (tuple_gt_valid _ _ V) in Ep. cbn [rbind] in Ep.
  rewrite (aindex_ok _ F [] idx) in Ep by (rewrite ?app_nil_r; assumption). injection Ep as <-. cbn [aget] in Hp. rewrite app_nil_r in Hp. exact Hp.
Qed.
Lemma g_total idx : valid_idx F idx ->
  total (answer_shape (gs_per_bin gs) (gs_spec gs)) (fun j => aget (gs_stats gs) (idx ++ j)) = stat_at f R idx.
Proof.
  intro V. unfold stat_at, answer_total. rewrite !total_sum_over. apply sum_over_ext. intros j J. apply g_content; assumption.
Qed.
Lemma g_raw kw : (forall p, In p (gs_pars gs) -> dget (fp_name p) kw = None) -> gs_pars gs <> [] ->
  exists s, get_raw_stats gs kw = Ok s /\ ashape s = F /\ forall idx, valid_idx F idx -> aget s idx = stat_at f R idx.
Proof.
  intros K NE. pose proof g_good as GG. pose proof GG as (G1 & G2 & G3 & G4 & G5).
  assert (X : exists s, (if shape_eqb (ashape (gs_stats gs)) (fit_shape (gs_pars gs) ++ gs_spec gs)
      then sum_last (length (gs_spec gs)) (gs_stats gs) else Ok (gs_stats gs)) = Ok s /\ ashape s = F /\
      forall idx, valid_idx F idx -> aget s idx = total (answer_shape (gs_per_bin gs) (gs_spec gs)) (fun j => aget (gs_stats gs) (idx ++ j))).
  { rewrite G3, G4. unfold answer_shape in *. destruct (gs_per_bin gs).
    - rewrite (shape_eqb_refl (F ++ gs_spec gs)). destruct (sum_last_ok (gs_spec gs) (gs_stats gs) F G4) as (c & E & S & H).
      exists c. split; [exact E|]. split; [exact S|]. intros idx V. rewrite total_sum_over. apply H, V.
    - rewrite app_nil_r in *. assert (H : forall idx, valid_idx F idx -> aget (gs_stats gs) idx = total [] (fun j => aget (gs_stats gs) (idx ++ j))).
      { intros idx _. rewrite total_sum_over. cbn [sum_over]. rewrite app_nil_r. reflexivity. }
      destruct (shape_eqb F (F ++ gs_spec gs)) eqn:E.
      + apply shape_eqb_eq in E. assert (gs_spec gs = []) as ->. { apply (app_inv_head F). rewrite app_nil_r. symmetry. exact E. }
        exists (gs_stats gs). split; [reflexivity|]. split; assumption.
      + exists (gs_stats gs). split; [reflexivity|]. split; assumption. }
  destruct X as (s & E & S & H). exists s. split; [|split; [exact S|intros idx V; rewrite (H idx V); apply g_total; exact V]].
  unfold get_raw_stats. rewrite E. cbn [rbind]. destruct kw as [|x kw]; [reflexivity|].
  assert (existsb (fun p => match dget (fp_name p) (x :: kw) with Some _ => true | None => false end) (gs_pars gs) = false) as ->.
  { apply Bool.not_true_is_false. intro Hx. apply existsb_exists in Hx as (p & Ip & Hp). rewrite (K p Ip) in Hp. discriminate. }
  assert (length (gs_pars gs) = length F) as L. { rewrite <- G3. unfold fit_shape. rewrite map_length. reflexivity. }
  destruct (Nat.eqb_spec (length (gs_pars gs)) 0) as [E0|_].
  { apply length_zero_iff_nil in E0. contradiction. }
  unfold andim. rewrite S, L, Nat.leb_refl. reflexivity.
Qed.
Lemma g_stats : exists s, get_stats gs = Ok s /\ ashape s = F /\ forall idx, valid_idx F idx -> aget s idx = (stat_at f R idx + P idx)%Qc.
Proof.
  destruct (get_stats_ok _ _ F gs g_good) as (s & E & S & H). exists s. split; [exact E|]. split; [exact S|].
  intros idx V. rewrite (H idx V), g_total, g_pen by exact V. reflexivity.
Qed.
End G.

(** ** Two parameters *)
Lemma items2_ok a n m h : ashape a = [n; m] -> (forall idx, valid_idx [n; m] idx -> aget a idx = h idx) ->
  items2 a = Ok (map (fun i => map (fun j => h [i; j]) (seq 0 m)) (seq 0 n)).
Proof.
  intros S H. unfold items2. rewrite S. f_equal. apply map_ext_in. intros i I. apply in_seq in I. apply map_ext_in. intros j J. apply in_seq in J.
  apply H. repeat constructor; lia.
Qed.
Lemma table_shows flip (p1 p2 : fpar) (n m : nat) (h : list nat -> Qc) : 0 < n -> 0 < m ->
  Z.to_nat (fp_bins (if flip : bool then p2 else p1)) = n -> Z.to_nat (fp_bins (if flip then p1 else p2)) = m ->
  shows2 (set_rows flip 1 (map (fun i => map (fun j => h [i; j]) (seq 0 m)) (seq 0 n)) (par_h2 p1 p2))
    (axis_of p1) (axis_of p2) (fun i j => if flip then h [j; i] else h [i; j]).
Proof.
  intros N M E1 E2. assert (B1 : (0 < fp_bins p1)%Z) by (destruct flip; lia). assert (B2 : (0 < fp_bins p2)%Z) by (destruct flip; lia).
  pose proof (set_rows_shows flip (axis_of p1) (axis_of p2) (fun i j => h [i; j]) B1 B2) as H. cbv zeta in H.
  replace (Z.to_nat (sp_bins (if flip then axis_of p1 else axis_of p2))) with m in H by (destruct flip; cbn in *; lia).
  replace (Z.to_nat (sp_bins (if flip then axis_of p2 else axis_of p1))) with n in H by (destruct flip; cbn in *; lia).
  exact H.
Qed.
Section Two.
Variables (lg : fpar -> res (list Qc)) (f : fresults) (l1 l2 : list Qc) (R : list nat -> sres) (P : list nat -> Qc).
Variables (n1 n2 : string) (e1 e2 : gentry).
Hypothesis G : grid_results lg f [l1; l2] R P.
Hypothesis E : gc_pars (fr_fit f) = [(n1, e1); (n2, e2)].
Let p1 := cp_par (ge_par e1).
Let p2 := cp_par (ge_par e2).

Lemma two_facts : n1 <> n2 /\ fp_name p1 = n1 /\ fp_name p2 = n2 /\ gs_pars (fr_search f) = [p1; p2] /\
  Z.to_nat (fp_bins p1) = length l1 /\ Z.to_nat (fp_bins p2) = length l2 /\ 0 < length l1 /\ 0 < length l2 /\
  snd (get_values lg p1) = Ok l1 /\ snd (get_values lg p2) = Ok l2.
Proof.
  destruct G as (A & B & C & D & _ & Ne & _). unfold gc_fpars, gc_get_pars, dkeys in *. rewrite E in *. cbn in A, B, C. rewrite A in *. cbn in B.
  injection B as B1 B2. inversion D as [|? ? ? ? (V1 & _ & D1) D']; subst. inversion D' as [|? ? ? ? (V2 & _ & D2) _]; subst.
  inversion C as [|? ? C1 _]; subst. inversion Ne as [|? ? Ne1 Ne']; subst. inversion Ne' as [|? ? Ne2 _]; subst.
  repeat split; try assumption; try reflexivity; try (destruct l1, l2; cbn; congruence || lia).
  cbn in C1. intro H. apply C1. left. symmetry. exact H.
Qed.
Lemma look1 : gc_get_par (fr_fit f) n1 = Ok (ge_par e1) /\ gc_get_index (fr_fit f) n1 = Ok 0.
Proof. unfold gc_get_par, gc_get_index, gc_get_pars, dlookup, dkeys. rewrite E. cbn. rewrite String.eqb_refl. split; reflexivity. Qed.
Lemma look2 : gc_get_par (fr_fit f) n2 = Ok (ge_par e2) /\ gc_get_index (fr_fit f) n2 = Ok 1.
Proof.
  destruct two_facts as (N & _). unfold gc_get_par, gc_get_index, gc_get_pars, dlookup, dkeys. rewrite E. cbn. rewrite String.eqb_refl.
  destruct (String.eqb_spec n2 n1) as [H|_]; [congruence|]. destruct (String.eqb_spec n1 n2); [congruence|]. split; reflexivity.
Qed.
Lemma two_raw_l : exists h h',
  plot_raw_stats_vs_pars f n1 n2 [] = Ok h /\ shows2 h (axis_of p1) (axis_of p2) (fun i j => stat_at f R [i; j]) /\
  plot_raw_stats_vs_pars f n2 n1 [] = Ok h' /\ shows2 h' (axis_of p2) (axis_of p1) (fun i j => stat_at f R [j; i]).
Proof.
  destruct two_facts as (N & N1 & N2 & Ps & B1 & B2 & L1 & L2 & V1 & V2). destruct look1 as [A1 I1]. destruct look2 as [A2 I2].
  destruct (g_raw lg f [l1; l2] R P G []) as (s & Es & Ss & Hs); [reflexivity|rewrite Ps; discriminate|].
  unfold plot_raw_stats_vs_pars. rewrite A1, A2. cbn [rbind]. rewrite Es, I1, I2. cbn [rbind].
  rewrite (items2_ok s _ _ _ Ss Hs). cbn [rbind]. change (0 <? 1) with true. change (1 <? 0) with false. cbn [negb].
  do 2 eexists. split; [reflexivity|]. split; [|split; [reflexivity|]].
  - apply (table_shows false); assumption.
  - apply (table_shows true); assumption.
Qed.
Lemma rmap_at_map {A B} (g : nat -> A -> res B) (k : nat -> B) (h : nat -> A) m : forall a,
  (forall i, a <= i < a + m -> g i (h i) = Ok (k i)) -> rmap_at g a (map h (seq a m)) = Ok (map k (seq a m)).
Proof.
  induction m as [|m IH]; intros a H; [reflexivity|]. cbn [seq map rmap_at]. rewrite H by lia. cbn [rbind].
  rewrite IH by (intros; apply H; lia). reflexivity.
Qed.
Lemma value_at p l i : snd (get_values lg p) = Ok l -> i < length l -> snd (get_value_at lg p (Z.of_nat i)) = Ok (nth i l 0%Qc).
Proof.
  intros H L. unfold get_value_at. destruct (get_values lg p) as [p' r]. cbn [snd] in *. subst r. cbn [rbind].
  rewrite norm_nat by exact L. reflexivity.
Qed.
Lemma penalty_kw i j kw : Forall distinguishable [l1; l2] -> i < length l1 -> j < length l2 ->
  dget n1 kw = Some (nth i l1 0%Qc) -> dget n2 kw = Some (nth j l2 0%Qc) ->
  exists p, get_penalty_at lg (fr_search f) kw = Ok p /\ ashape p = [] /\ aget p [] = P [i; j].
Proof.
  intros D I J K1 K2. destruct two_facts as (N & N1 & N2 & Ps & B1 & B2 & L1 & L2 & V1 & V2).
  assert (V : valid_idx (map (@length Qc) [l1; l2]) [i; j]) by (repeat constructor; assumption).
  pose proof G as (_ & _ & ND & Gr & [R1 R2] & _ & Rd).
  assert (ND' : NoDup (map fp_name (gs_pars (fr_search f)))). { rewrite Ps. cbn. rewrite N1, N2. repeat constructor; cbn; intuition congruence. }
  destruct (Rd [i; j] V) as (_ & (p & Ep & Sp & Hp) & _).
  unfold get_penalty_at. rewrite (bins_of_ok lg _ _ Gr [i; j] V D ND').
  2: { rewrite Ps. unfold keywords. cbn. rewrite N1, N2. intros n v [H|[H|[]]]; injection H as <- <-; assumption. }
  cbn [rbind]. rewrite R2. rewrite <- (app_nil_r (map (@length Qc) [l1; l2])), norm_prefix_nat by exact V. cbn [rbind].
  unfold get_penalty_term_at, check_bounds in Ep. rewrite (grid_fit_shape lg _ _ Gr), (tuple_gt_valid _ _ V) in Ep. exists p. auto.
Qed.
Lemma put_two a b va vb : a <> b -> dget a (put_kw b vb (put_kw a va [])) = Some va /\ dget b (put_kw b vb (put_kw a va [])) = Some vb.
Proof.
  intro N. unfold put_kw, dset. cbn. destruct (String.eqb_spec b a); [congruence|]. cbn. rewrite String.eqb_refl.
  destruct (String.eqb_spec a b); [congruence|]. destruct (String.eqb_spec b a); [congruence|]. rewrite String.eqb_refl. split; reflexivity.
Qed.
Lemma two_stats_l : Forall distinguishable [l1; l2] -> exists h h',
  plot_stats_vs_pars lg f n1 n2 [] = Ok h /\ shows2 h (axis_of p1) (axis_of p2) (fun i j => stat_at f R [i; j] + P [i; j])%Qc /\
  plot_stats_vs_pars lg f n2 n1 [] = Ok h' /\ shows2 h' (axis_of p2) (axis_of p1) (fun i j => stat_at f R [j; i] + P [j; i])%Qc.
Proof.
  intro D. destruct two_facts as (N & N1 & N2 & Ps & B1 & B2 & L1 & L2 & V1 & V2). destruct look1 as [A1 I1]. destruct look2 as [A2 I2].
  destruct (g_raw lg f [l1; l2] R P G []) as (s & Es & Ss & Hs); [reflexivity|rewrite Ps; discriminate|].
  unfold plot_stats_vs_pars. rewrite A1, A2. cbn [rbind]. rewrite Es, I1, I2. cbn [rbind].
  rewrite (items2_ok s _ _ _ Ss Hs). cbn [rbind]. change (0 <? 1) with true. change (1 <? 0) with false. cbn [negb].
  fold p1 p2.
  rewrite (rmap_at_map _ (fun i => map (fun j => stat_at f R [i; j] + P [i; j])%Qc (seq 0 (length l2)))).
  2: { intros i I. apply rmap_at_map. intros j J. unfold with_penalty.
       rewrite (value_at p1 l1 i V1), (value_at p2 l2 j V2) by lia. cbn [rbind].
       destruct (put_two n1 n2 (nth i l1 0%Qc) (nth j l2 0%Qc) N) as [K1 K2].
       assert (Li : i < length l1) by lia. assert (Lj : j < length l2) by lia.
       destruct (penalty_kw i j _ D Li Lj K1 K2) as (p & -> & Sp & Hp). cbn [rbind]. rewrite Sp, Hp. reflexivity. }
  cbn [rbind].
  rewrite (rmap_at_map _ (fun i => map (fun j => stat_at f R [i; j] + P [i; j])%Qc (seq 0 (length l2)))).
  2: { intros i I. apply rmap_at_map. intros j J. unfold with_penalty.
       rewrite (value_at p1 l1 i V1), (value_at p2 l2 j V2) by lia. cbn [rbind].
       destruct (put_two n2 n1 (nth j l2 0%Qc) (nth i l1 0%Qc)) as [K2 K1]; [congruence|].
       assert (Li : i < length l1) by lia. assert (Lj : j < length l2) by lia.
       destruct (penalty_kw i j _ D Li Lj K1 K2) as (p & -> & Sp & Hp). cbn [rbind]. rewrite Sp, Hp. reflexivity. }
  cbn [rbind].
  do 2 eexists. split; [reflexivity|]. split; [|split; [reflexivity|]].
  - apply (table_shows false p1 p2 (length l1) (length l2) (fun idx => stat_at f R idx + P idx)%Qc); assumption.
  - apply (table_shows true p2 p1 (length l1) (length l2) (fun idx => stat_at f R idx + P idx)%Qc); assumption.
Qed.
End Two.

(** ** One parameter *)
Lemma flat_one a n h : ashape a = [n] -> (forall idx, valid_idx [n] idx -> aget a idx = h idx) -> flat a = map (fun i => h [i]) (seq 0 n).
Proof.
  intros S H. unfold flat. rewrite S, c_order_one, map_map. apply map_ext_in. intros i I. apply in_seq in I. apply H. repeat constructor. lia.
Qed.
Lemma one_l lg f l R P n e : grid_results lg f [l] R P -> gc_pars (fr_fit f) = [(n, e)] ->
  plot_raw_stats_vs_par_scale lg f n [] = Ok (List.combine l (map (fun i => stat_at f R [i]) (seq 0 (length l)))) /\
  plot_stats_vs_par_scale lg f n = Ok (List.combine l (map (fun i => stat_at f R [i] + P [i])%Qc (seq 0 (length l)))) /\
  plot_penalty_term_vs_par_scale lg f n = Ok (List.combine l (map (fun i => P [i]) (seq 0 (length l)))).
Proof.
  intros G E. pose proof G as (A & B & C & D & [Rd1 Rd2] & Ne & _).
  assert (Sc : fr_get_scales lg f n = Ok l).
  { unfold fr_get_scales, gc_get_par, dlookup. rewrite E. cbn. rewrite String.eqb_refl. cbn. unfold gc_fpars in A. rewrite E in A. cbn in A. rewrite A in D.
    inversion D as [|? ? ? ? (V & _) _]; subst. exact V. }
  assert (NE : gs_pars (fr_search f) <> []). { rewrite A. unfold gc_fpars. rewrite E. discriminate. }
  destruct (g_raw lg f [l] R P G []) as (s & Es & Ss & Hs); [reflexivity|exact NE|].
  destruct (g_stats lg f [l] R P G) as (t & Et & St & Ht).
  unfold plot_raw_stats_vs_par_scale, plot_stats_vs_par_scale, plot_penalty_term_vs_par_scale. rewrite Sc, Es, Et. cbn [rbind].
  rewrite (flat_one s _ _ Ss Hs), (flat_one t _ _ St Ht).
  unfold fr_get_penalty_terms, gc_get_pars, dkeys. rewrite E. cbn [map length Nat.eqb rbind].
  rewrite (flat_one (gs_pen (fr_search f)) (length l) P); [|exact Rd2|intros idx V; apply (g_pen lg f [l] R P G idx V)].
  rewrite !tgraph_all by (rewrite map_length, seq_length; reflexivity). auto.
Qed.

(** ** Any other number of parameters *)
Lemma not_two_l lg f ls R P : grid_results lg f ls R P -> length ls <> 2 -> forall a b kw,
  is_ok (plot_raw_stats_vs_pars f a b kw) = false /\ is_ok (plot_stats_vs_pars lg f a b kw) = false.
Proof.
  intros G L a b kw. pose proof (g_good lg f ls R P G) as GG. pose proof GG as (_ & _ & G3 & G4 & _).
  assert (X : forall s, get_raw_stats (fr_search f) kw = Ok s -> is_ok (items2 s) = false).
  { intros s Es. destruct (gs_pars (fr_search f)) as [|p ps] eqn:Ps.
    - (* no parameters *)
      destruct ls as [|x ls]; [|destruct G as (_ & _ & _ & D & _); rewrite Ps in D; inversion D].
      destruct kw as [|k kw].
      + unfold get_raw_stats in Es. rewrite Ps, G4 in Es. cbn [map app fit_shape] in Es. unfold answer_shape in *.
        destruct (gs_per_bin (fr_search f)).
        * rewrite shape_eqb_refl in Es. destruct (sum_last_ok (gs_spec (fr_search f)) (gs_stats (fr_search f)) [] G4) as (c & E & S & _).
          rewrite E in Es. cbn [rbind] in Es. injection Es as <-. unfold items2. rewrite S. reflexivity.
        * destruct (shape_eqb [] (gs_spec (fr_search f))) eqn:E.
          -- apply shape_eqb_eq in E. rewrite <- E in Es. cbn in Es. injection Es as <-. unfold items2. rewrite G4. reflexivity.
          -- cbn in Es. injection Es as <-. unfold items2. rewrite G4. reflexivity.
      + unfold get_raw_stats in Es. rewrite Ps in Es. cbn [existsb length Nat.eqb] in Es.
        destruct (if shape_eqb _ _ then _ else _) in Es; discriminate.
    - assert (NE : gs_pars (fr_search f) <> []) by (rewrite Ps; discriminate).
      assert (Y : forall q, In q (gs_pars (fr_search f)) -> dget (fp_name q) kw = None).
      { intros q Iq. destruct (dget (fp_name q) kw) as [v|] eqn:K; [|reflexivity]. exfalso.
        pose proof (raw_stats_kwargs_l (fr_search f) kw q v Iq K) as Z. rewrite Ps, G3 in Z. rewrite Es in Z. specialize (Z G4). discriminate. }
      destruct (g_raw lg f ls R P G kw Y NE) as (s' & Es' & Ss' & _). rewrite Es' in Es. injection Es as <-.
      unfold items2. rewrite Ss'. destruct ls as [|x [|y [|z ls]]]; cbn [map] in *; try reflexivity. cbn in L. lia. }
  unfold plot_raw_stats_vs_pars, plot_stats_vs_pars.
  destruct (gc_get_par (fr_fit f) a); cbn [rbind]; [|split; reflexivity].
  destruct (gc_get_par (fr_fit f) b); cbn [rbind]; [|split; reflexivity].
  destruct (get_raw_stats (fr_search f) kw) as [s|]; cbn [rbind]; [|split; reflexivity]. specialize (X s eq_refl).
  destruct (gc_get_index (fr_fit f) a); cbn [rbind]; [|split; reflexivity].
  destruct (gc_get_index (fr_fit f) b); cbn [rbind]; [|split; reflexivity].
  destruct (items2 s); [discriminate|]. split; reflexivity.
Qed.
(** The keywords that name a parameter *)
Lemma named_kw_l lg f ls R P : grid_results lg f ls R P -> forall a b n v kw, In n (gc_get_pars (fr_fit f)) -> dget n kw = Some v ->
  is_ok (plot_raw_stats_vs_pars f a b kw) = false /\ is_ok (plot_stats_vs_pars lg f a b kw) = false /\
  is_ok (plot_raw_stats_vs_par_scale lg f a kw) = false.
Proof.
  intros G a b n v kw I K. pose proof (g_good lg f ls R P G) as (_ & _ & G3 & G4 & _).
  destruct G as (_ & Nm & _). rewrite <- Nm in I. apply in_map_iff in I as (p & <- & Ip).
  pose proof (raw_stats_kwargs_l (fr_search f) kw p v Ip K) as Z. rewrite G3 in Z. specialize (Z G4).
  unfold plot_raw_stats_vs_pars, plot_stats_vs_pars, plot_raw_stats_vs_par_scale.
  destruct (get_raw_stats (fr_search f) kw); [discriminate|].
  destruct (fr_get_scales lg f a); destruct (gc_get_par (fr_fit f) a); destruct (gc_get_par (fr_fit f) b); cbn [rbind]; auto.
Qed.

(** ** Per bin *)
Lemma best_values_l lg f ls R P idx : grid_results lg f ls R P -> best_at f ls idx ->
  best_values (fr_fit f) = Ok (keywords (gs_pars (fr_search f)) ls idx).
Proof.
  intros (A & B & _) H. unfold best_at, best_values, keywords, gc_fpars, gc_get_pars, dkeys in *.
  assert (C : forall g q, gs_pars (fr_search f) = map (fun ke : string * gentry => cp_par (ge_par (snd ke))) g -> map fp_name (gs_pars (fr_search f)) = map fst g ->
    Forall2 (fun p (li : list Qc * nat) => fp_best p = Some (nth (snd li) (fst li) 0%Qc) /\ fp_penalty p <> None) (gs_pars (fr_search f)) q ->
    rmapM (fun ke : string * gentry => do b <- get_best_fit (cp_par (ge_par (snd ke))); do _ <- get_penalty_term (cp_par (ge_par (snd ke))); Ok (fst ke, b)) g
    = Ok (List.combine (map fp_name (gs_pars (fr_search f))) (map (fun li : list Qc * nat => nth (snd li) (fst li) 0%Qc) q))).
  { generalize (gs_pars (fr_search f)). clear. intros ps g. revert ps. induction g as [|[k e] g IH]; intros ps q E N F.
    - rewrite E in *. inversion F. reflexivity.
    - cbn in E. subst ps. cbn in N. injection N as N1 N2. inversion F as [|? [l i] ? q' (Hb & Hp) F']; subst. cbn [rmapM map List.combine fst snd].
      unfold get_best_fit at 1, get_penalty_term at 1, or_raise. rewrite Hb. cbn [rbind].
      destruct (fp_penalty (cp_par (ge_par e))); [|congruence]. cbn [rbind]. cbn in IH. rewrite (IH _ q' eq_refl N2 F'). reflexivity. }
  apply C; assumption.
Qed.
Lemma per_bin_one_l lg f ls R P idx d p : grid_results lg f ls R P -> valid_idx (map (@length Qc) ls) idx -> Forall distinguishable ls ->
  fr_spec f = [(d, p)] -> gs_per_bin (fr_search f) = true -> gs_spec (fr_search f) = [Z.to_nat (sp_bins p)] -> (1 < sp_bins p)%Z ->
  exists h, plot_per_bin lg f false d None (keywords (gs_pars (fr_search f)) ls idx) = Ok (Pic1 h) /\
    shows h p (fun k => content (R idx) [k]) /\
    (best_at f ls idx -> plot_per_bin lg f true d None [] = Ok (Pic1 h)).
Proof.
  intros G V D Es Pb Sp B. pose proof G as (_ & Nm & ND & Gr & Rd & _ & Rs). rewrite <- Nm in ND.
  destruct (raw_at_l lg (fr_search f) ls idx (R idx) (P idx) Gr Rd V D ND (Rs idx V) Pb) as (s & Er & Ss & Hs).
  { rewrite Sp. cbn. lia. } { rewrite Sp. cbn. lia. }
  rewrite Sp in Ss. rewrite Ss in Hs.
  assert (It : items1 s = Ok (map (fun k => content (R idx) [k]) (seq 0 (Z.to_nat (sp_bins p))))).
  { unfold items1. rewrite Ss. f_equal. apply map_ext_in. intros k K. apply in_seq in K. apply Hs. repeat constructor. lia. }
  eexists. split; [|split].
  - unfold plot_per_bin. cbn [rbind]. rewrite Er. cbn [rbind]. unfold get_par, dlookup. rewrite Es. cbn [dget]. rewrite String.eqb_refl. cbn [rbind].
    rewrite It. reflexivity.
  - match goal with |- shows (set_bins 1 ?l ?h) _ _ => destruct (set_bins_at l 1 h) as [H1 H2]; [lia|unfold new_h1; cbn [h1_bins]; rewrite map_length, seq_length; lia|set (l0 := l) in *] end.
    assert (L0 : length l0 = Z.to_nat (sp_bins p)) by (unfold l0; rewrite map_length, seq_length; reflexivity).
    assert (Hb : forall l b h, h1_bins (set_bins b l h) = h1_bins h /\ h1_low (set_bins b l h) = h1_low h /\ h1_high (set_bins b l h) = h1_high h).
    { induction l as [|x l IH]; intros b h; [auto|]. cbn [set_bins]. destruct (IH (b + 1)%Z (h1_set b x h)) as (-> & -> & ->). unfold h1_set. destruct (_ && _)%bool; auto. }
    unfold shows. destruct (Hb l0 1%Z (new_h1 (sp_bins p) (sp_low p) (sp_high p))) as (-> & -> & ->). repeat split.
    + intros i I. rewrite Z.add_comm. rewrite H1 by lia. unfold l0. apply (nth_map_seq (fun k => content (R idx) [k])). lia.
    + intros b [Hx|Hx]; rewrite H2 by lia; reflexivity.
  - intro Hb. unfold plot_per_bin. rewrite (best_values_l lg f ls R P idx G Hb). cbn [rbind]. rewrite Er. cbn [rbind]. unfold get_par, dlookup. rewrite Es. cbn [dget]. rewrite String.eqb_refl. cbn [rbind].
    rewrite It. reflexivity.
Qed.
Lemma per_bin_two_l lg f ls R P idx d1 q1 d2 q2 : grid_results lg f ls R P -> valid_idx (map (@length Qc) ls) idx -> Forall distinguishable ls ->
  fr_spec f = [(d1, q1); (d2, q2)] -> d1 <> d2 -> gs_per_bin (fr_search f) = true ->
  gs_spec (fr_search f) = [Z.to_nat (sp_bins q1); Z.to_nat (sp_bins q2)] -> (1 < sp_bins q1)%Z -> (1 < sp_bins q2)%Z ->
  exists h, plot_per_bin lg f false d2 (Some d1) (keywords (gs_pars (fr_search f)) ls idx) = Ok (Pic2 h) /\
    shows2 h q2 q1 (fun i j => content (R idx) [j; i]) /\
    (best_at f ls idx -> plot_per_bin lg f true d2 (Some d1) [] = Ok (Pic2 h)).
Proof.
  intros G V D Es Nd Pb Sp B1 B2. pose proof G as (_ & Nm & ND & Gr & Rd & _ & Rs). rewrite <- Nm in ND.
  destruct (raw_at_l lg (fr_search f) ls idx (R idx) (P idx) Gr Rd V D ND (Rs idx V) Pb) as (s & Er & Ss & Hs).
  { rewrite Sp. cbn. lia. } { rewrite Sp. cbn. lia. }
  rewrite Sp in Ss. rewrite Ss in Hs.
  pose proof (items2_ok s _ _ _ Ss Hs) as It.
  assert (L2 : get_par (fr_spec f) d2 = Ok q2). { unfold get_par, dlookup. rewrite Es. cbn [dget]. destruct (String.eqb_spec d2 d1); [congruence|]. rewrite String.eqb_refl. reflexivity. }
  assert (L1 : get_par (fr_spec f) d1 = Ok q1). { unfold get_par, dlookup. rewrite Es. cbn [dget]. rewrite String.eqb_refl. reflexivity. }
  assert (I2 : exists k, get_index (fr_spec f) d2 = Ok k).
  { unfold get_index. destruct (index_of_ok d2 (get_pars (fr_spec f))) as (k & -> & _); [rewrite Es; right; left; reflexivity|eauto]. }
  destruct I2 as [k I2].
  eexists. split; [|split].
  - unfold plot_per_bin. cbn [rbind]. rewrite Er. cbn [rbind]. rewrite L1, L2. cbn [rbind]. rewrite I2. cbn [rbind]. rewrite It. cbn [rbind].
    rewrite Nat.ltb_irrefl. reflexivity.
  - assert (P1 : (0 < sp_bins q1)%Z) by lia. assert (P2 : (0 < sp_bins q2)%Z) by lia.
    exact (set_rows_shows true q2 q1 (fun i j => content (R idx) [i; j]) P2 P1).
  - intro Hb. unfold plot_per_bin. rewrite (best_values_l lg f ls R P idx G Hb). cbn [rbind]. rewrite Er. cbn [rbind]. rewrite L1, L2. cbn [rbind]. rewrite I2. cbn [rbind]. rewrite It. cbn [rbind].
    rewrite Nat.ltb_irrefl. reflexivity.
Qed.

(** ** The graphs of a fit with two parameters *)
Lemma flat_two a n m h k : ashape a = [n; m] -> (forall idx, valid_idx [n; m] idx -> aget a idx = h idx) -> k < n * m ->
  nth k (flat a) 0%Qc = h [k / m; k mod m].
Proof.
  intros S H K. unfold flat, c_order. rewrite S, map_map. cbn [asize fold_right]. rewrite Nat.mul_1_r.
  rewrite (nth_map_seq (fun x => aget a (unravel [n; m] x))) by exact K. cbn [unravel asize fold_right]. rewrite Nat.mul_1_r, Nat.div_1_r.
  apply H. assert (m <> 0) by (intros ->; lia). constructor; [apply Nat.div_lt_upper_bound; lia|]. constructor; [apply Nat.mod_upper_bound; assumption|constructor].
Qed.
Lemma tgraph_firstn (x y : list Qc) g : length x <= length y -> (forall k, k < length x -> nth k y 0%Qc = g k) ->
  tgraph (length x) x y = Ok (List.combine x (map g (seq 0 (length x)))).
Proof.
  intros L H. unfold tgraph. rewrite Nat.leb_refl, (proj2 (Nat.leb_le _ _) L). cbn [andb]. f_equal.
  assert (E : map g (seq 0 (length x)) = firstn (length x) y).
  { apply nth_ext with (d := 0%Qc) (d' := 0%Qc); [rewrite map_length, seq_length, firstn_length; lia|].
    intros k K. rewrite map_length, seq_length in K. rewrite nth_map_seq by exact K. rewrite <- (H k K).
    rewrite <- (firstn_skipn (length x) y) at 1. rewrite app_nth1 by (rewrite firstn_length; lia). reflexivity. }
  rewrite E, combine_firstn. rewrite firstn_all. reflexivity.
Qed.

Lemma flat_length a : length (flat a) = asize (ashape a).
Proof. unfold flat, c_order. rewrite !map_length, seq_length. reflexivity. Qed.
Section TwoGraphs.
Variables (lg : fpar -> res (list Qc)) (f : fresults) (l1 l2 : list Qc) (R : list nat -> sres) (P : list nat -> Qc).
Variables (n1 n2 : string) (e1 e2 : gentry).
Hypothesis G : grid_results lg f [l1; l2] R P.
Hypothesis E : gc_pars (fr_fit f) = [(n1, e1); (n2, e2)].
Let m := length l2.
Lemma scales_two par l : (par = n1 /\ l = l1) \/ (par = n2 /\ l = l2) -> fr_get_scales lg f par = Ok l /\ length l <= length l1 * m.
Proof.
  destruct (two_facts lg f l1 l2 R P n1 n2 e1 e2 G E) as (N & N1 & N2 & Ps & B1 & B2 & L1 & L2 & V1 & V2).
  destruct (look1 f n1 n2 e1 e2 E) as [A1 _]. destruct (look2 lg f l1 l2 R P n1 n2 e1 e2 G E) as [A2 _].
  unfold fr_get_scales, m. intros [[-> ->]|[-> ->]]; [rewrite A1|rewrite A2]; cbn [rbind]; split; assumption || nia.
Qed.
Lemma two_graphs_l par l : (par = n1 /\ l = l1) \/ (par = n2 /\ l = l2) ->
  plot_raw_stats_vs_par_scale lg f par [] = Ok (List.combine l (map (fun k => stat_at f R [k / m; k mod m]) (seq 0 (length l)))) /\
  plot_stats_vs_par_scale lg f par =
    Ok (List.combine l (map (fun k => stat_at f R [k / m; k mod m]%nat + P [k / m; k mod m]%nat)%Qc (seq 0 (length l)))).
Proof.
  intro C. destruct (scales_two par l C) as [Sc L]. pose proof G as (A & _).
  assert (NE : gs_pars (fr_search f) <> []). { rewrite A. unfold gc_fpars. rewrite E. discriminate. }
  destruct (g_raw lg f _ R P G []) as (s & Es & Ss & Hs); [reflexivity|exact NE|].
  destruct (g_stats lg f _ R P G) as (t & Et & St & Ht). cbn [map] in *.
  unfold plot_raw_stats_vs_par_scale, plot_stats_vs_par_scale. rewrite Sc, Es, Et. cbn [rbind]. split.
  - apply tgraph_firstn; [rewrite flat_length, Ss; cbn [asize fold_right]; fold m; lia|].
    intros k K. apply (flat_two s _ _ _ _ Ss Hs). fold m. lia.
  - apply tgraph_firstn; [rewrite flat_length, St; cbn [asize fold_right]; fold m; lia|].
    intros k K. exact (flat_two t _ _ _ k St Ht (Nat.lt_le_trans _ _ _ K L)).
Qed.
Lemma row_two i : i < length l1 -> exists s, aindex (gs_pen (fr_search f)) [i] = Ok s /\ ashape s = [m] /\ forall idx, valid_idx [m] idx -> aget s idx = P (i :: idx).
Proof.
  intro I. pose proof G as (_ & _ & _ & _ & [_ R2] & _). cbn [map] in R2.
  rewrite (aindex_ok _ [length l1] [m] [i] R2) by (repeat constructor; assumption). eexists. split; [reflexivity|]. split; [reflexivity|].
  intros idx V. cbn [aget app]. apply (g_pen lg f _ R P G). cbn [map]. constructor; assumption.
Qed.
Lemma two_penalty_l :
  (length l1 <= m -> plot_penalty_term_vs_par_scale lg f n1 = Ok (List.combine l1 (map (fun k => P [0; k]) (seq 0 (length l1))))) /\
  (m < length l1 -> is_ok (plot_penalty_term_vs_par_scale lg f n1) = false) /\
  (1 < length l1 -> plot_penalty_term_vs_par_scale lg f n2 = Ok (List.combine l2 (map (fun k => P [1; k]) (seq 0 m)))) /\
  (length l1 = 1 -> is_ok (plot_penalty_term_vs_par_scale lg f n2) = false).
Proof.
  destruct (two_facts lg f l1 l2 R P n1 n2 e1 e2 G E) as (N & N1 & N2 & Ps & B1 & B2 & L1 & L2 & V1 & V2).
  destruct (look1 f n1 n2 e1 e2 E) as [_ I1]. destruct (look2 lg f l1 l2 R P n1 n2 e1 e2 G E) as [_ I2].
  destruct (scales_two n1 l1) as [S1 _]; [left; auto|]. destruct (scales_two n2 l2) as [S2 _]; [right; auto|].
  unfold plot_penalty_term_vs_par_scale, fr_get_penalty_terms. rewrite S1, S2, I1, I2.
  assert (length (gc_get_pars (fr_fit f)) =? 1 = false) as ->. { unfold gc_get_pars, dkeys. rewrite E. reflexivity. }
  cbn [rbind]. destruct (row_two 0) as (s & -> & Ss & Hs); [lia|]. cbn [rbind].
  rewrite (flat_one s m _ Ss Hs). repeat split.
  - intro L. apply tgraph_firstn; [rewrite map_length, seq_length; exact L|]. intros k K. apply (nth_map_seq (fun k => P [0; k])). lia.
  - intro L. unfold tgraph. rewrite map_length, seq_length. assert (length l1 <=? m = false) as -> by (apply Nat.leb_gt; exact L).
    rewrite Bool.andb_false_r. reflexivity.
  - intro L. destruct (row_two 1) as (t & -> & St & Ht); [lia|]. cbn [rbind]. rewrite (flat_one t m _ St Ht).
    apply tgraph_all. rewrite map_length, seq_length. reflexivity.
  - intro L. pose proof G as (_ & _ & _ & _ & [_ R2] & _). cbn [map] in R2. unfold aindex. rewrite R2, L. reflexivity.
Qed.
End TwoGraphs.

(** Any results whose arrays have the shapes of the grids *)
Definition raw_of (f : fresults) (idx : list nat) : sres :=
  RArr (ND (answer_shape (gs_per_bin (fr_search f)) (gs_spec (fr_search f))) (fun j => aget (gs_stats (fr_search f)) (idx ++ j))).
Lemma own_results lg f ls : gs_pars (fr_search f) = gc_fpars (fr_fit f) -> map fp_name (gs_pars (fr_search f)) = gc_get_pars (fr_fit f) ->
  NoDup (gc_get_pars (fr_fit f)) -> grid_of lg (gs_pars (fr_search f)) ls -> ready (fr_search f) ls -> Forall (fun l => l <> []) ls ->
  grid_results lg f ls (raw_of f) (aget (gs_pen (fr_search f))).
Proof.
  intros A B C D E F. repeat (split; [assumption|]). intros idx V.
  apply (stored_reads (gs_per_bin (fr_search f)) (gs_spec (fr_search f)) (map (@length Qc) ls) (fr_search f) idx (raw_of f idx, aget (gs_pen (fr_search f)) idx)).
  - apply (ready_good lg); assumption.
  - exact V.
  - split; [reflexivity|reflexivity].
Qed.

From Coq Require Import Permutation Lia.
From Verif Require Import Model.Base Model.PyStr Model.NDArray Model.Param Model.Config Model.Spectra Model.FitParam Model.FitConfig.
From Verif Require Import Model.Minimise Model.Store Model.Results Model.Limit Model.LimitStore.
From Verif Require Import Spec.ArraySpec Spec.LimitSpec Spec.ConfigSpec Spec.StoreSpec Spec.ResultsSpec Spec.LimitStoreSpec.
From Verif Require Import Proofs.QcLemmas Proofs.NDArrayLemmas Proofs.DictLemmas Proofs.MinimiseLemmas Proofs.LimitLemmas Proofs.PreConvLemmas Proofs.ResultLemmas Proofs.ResultsLemmas.
Local Open Scope nat_scope.

(** ** One row *)
Definition row_ops (i : nat) (l : list (string * (Qc * Qc))) : list lop :=
  flat_map (fun x => [SetBest (Z.of_nat i) (fst (snd x)) (fst x); SetPenalty (Z.of_nat i) (snd (snd x)) (fst x)]) l.
Definition same_rest (a b : lresults) : Prop :=
  lr_name a = lr_name b /\ lr_fit a = lr_fit b /\ lr_spec a = lr_spec b /\ lr_spec_name a = lr_spec_name b /\
  lr_limit a = lr_limit b.
Lemma rest_refl a : same_rest a a. Proof. repeat split. Qed.
Lemma rest_trans a b c : same_rest a b -> same_rest b c -> same_rest a c.
Proof. unfold same_rest. intuition congruence. Qed.
Lemma set_rest r o : same_rest (fst (lr_set r o)) r /\ lr_fits (fst (lr_set r o)) = lr_fits r.
Proof.
  unfold lr_set. destruct o as [i v par|i v par|i v].
  - destruct (gc_get_index _ _) as [k|e]; cbn [rbind]; [|repeat split]. destruct (cell _ _ _) as [c|e]; cbn [rbind]; repeat split.
  - destruct (gc_get_index _ _) as [k|e]; cbn [rbind]; [|repeat split]. destruct (cell _ _ _) as [c|e]; cbn [rbind]; repeat split.
  - destruct (norm_indices _ _) as [k|e]; cbn [rbind]; repeat split.
Qed.
Lemma set_fine r n o : shaped r n -> proper (gc_get_pars (lr_fit r)) n o -> lr_set r o = (fst (lr_set r o), None).
Proof. intros Sh P. destruct (set_accepts r n o Sh) as [[_ H] _]. rewrite (surjective_pairing (lr_set r o)) at 1. now rewrite (H P). Qed.
Lemma set_row_l n i : i < n -> forall l r, shaped r n -> (forall p, In p (map fst l) -> In p (gc_get_pars (lr_fit r))) ->
  set_row r i l = (after (row_ops i l) r, None) /\ same_rest (after (row_ops i l) r) r /\ lr_fits (after (row_ops i l) r) = lr_fits r.
Proof.
  intros Hi. induction l as [|[p [b t]] l IH]; intros r Sh In_; [repeat split|].
  cbn [set_row row_ops flat_map app fst snd]. fold (row_ops i l). unfold after. cbn [fold_left].
  set (r1 := fst (lr_set r (SetBest (Z.of_nat i) b p))). set (r2 := fst (lr_set r1 (SetPenalty (Z.of_nat i) t p))).
  fold (after (row_ops i l) r2).
  assert (Ip : In p (gc_get_pars (lr_fit r))) by (apply In_; now left).
  rewrite (set_fine r n); [|exact Sh|split; [exact Ip|]; exists i; split; [exact Hi|apply refers_nat]]. fold r1.
  destruct (set_shaped r n (SetBest (Z.of_nat i) b p) Sh) as [Sh1 F1]. fold r1 in Sh1, F1.
  destruct (set_rest r (SetBest (Z.of_nat i) b p)) as [R1 G1]. fold r1 in R1, G1.
  rewrite (set_fine r1 n); [|exact Sh1|split; [now rewrite F1|]; exists i; split; [exact Hi|apply refers_nat]]. fold r2.
  destruct (set_shaped r1 n (SetPenalty (Z.of_nat i) t p) Sh1) as [Sh2 F2]. fold r2 in Sh2, F2.
  destruct (set_rest r1 (SetPenalty (Z.of_nat i) t p)) as [R2 G2]. fold r2 in R2, G2.
  destruct (IH r2 Sh2) as (A & B & C); [intros q Hq; rewrite F2, F1; apply In_; now right|].
  split; [exact A|]. split; [exact (rest_trans _ _ _ B (rest_trans _ _ _ R2 R1))|congruence].
Qed.
Lemma refers_of_nat n i j : refers n (Z.of_nat i) j = (j =? i).
Proof.
  unfold refers. destruct (Nat.eqb_spec j i), (Z.leb_spec 0 (Z.of_nat i)), (Z.eqb_spec (Z.of_nat i) (Z.of_nat j)), (Z.ltb_spec (Z.of_nat i) 0); cbn; try lia; reflexivity.
Qed.
Lemma latest_row n i j par : forall l s t, NoDup (map fst l) ->
  latest (best_set n j par) (row_ops i l) s = (if j =? i then match dget par l with Some v => fst v | None => s end else s) /\
  latest (penalty_set n j par) (row_ops i l) t = (if j =? i then match dget par l with Some v => snd v | None => t end else t).
Proof.
  induction l as [|[p [b u]] l IH]; intros s t N; [destruct (j =? i); split; reflexivity|].
  cbn [row_ops flat_map app latest best_set penalty_set fst snd]. fold (row_ops i l). rewrite !refers_of_nat.
  cbn [map fst] in N. apply NoDup_cons_iff in N as [N1 N2].
  cbn [dget]. rewrite (String.eqb_sym p par). destruct (j =? i) eqn:E; cbn [andb].
  - destruct (String.eqb_spec par p) as [->|NE].
    + destruct (IH b u N2) as [A B]. rewrite A, B.
      replace (dget p l) with (@None (Qc * Qc)); [split; reflexivity|]. symmetry. apply dget_none. exact N1.
    + apply IH. exact N2.
  - apply IH. exact N2.
Qed.
Lemma latest_stat n i j : forall l s, latest (stat_set n j) (row_ops i l) s = s.
Proof. induction l as [|[p [b u]] l IH]; intro s; [reflexivity|]. cbn. apply IH. Qed.

(** ** One fit *)
Lemma keep_fit_l fits r n i f B P S : shaped r n -> length (lr_fits r) = n -> keeps r n B P S -> i < n ->
  full_summary (gc_get_pars (lr_fit r)) f ->
  exists r', keep_fit fits r i f = (r', None) /\ shaped r' n /\ same_rest r' r /\ length (lr_fits r') = n /\
    keeps r' n (fun j par => if j =? i then fst (summary_of f par) else B j par) (fun j par => if j =? i then snd (summary_of f par) else P j par) S /\
    forall j, nth_error (lr_fits r') j = if (fits && (j =? i))%bool then option_map (fun x => Some (snd x)) (fm_results f) else nth_error (lr_fits r) j.
Proof.
  intros Sh LF K Hi (l & gs & E & Pm & _). unfold keep_fit, summary_of. rewrite E.
  assert (ND : NoDup (map fst l)). { apply Permutation_sym in Pm. eapply Permutation_NoDup; [exact Pm|]. apply Sh. }
  destruct (set_row_l n i Hi l r Sh) as (A1 & A2 & A3). { intros p Hp. eapply Permutation_in; [exact Pm|exact Hp]. }
  rewrite A1. set (r1 := after (row_ops i l) r) in *.
  destruct (keeps_after r n B P S (row_ops i l) Sh K) as [Sh1 K1]. fold r1 in Sh1, K1.
  assert (K2 : keeps r1 n (fun j par => if j =? i then fst (match dget par l with Some v => v | None => (0, 0)%Qc end) else B j par)
                 (fun j par => if j =? i then snd (match dget par l with Some v => v | None => (0, 0)%Qc end) else P j par) S).
  { assert (G : forall par, In par (gc_get_pars (lr_fit r1)) -> exists v, dget par l = Some v).
    { intros par Hp. destruct A2 as (_ & A2 & _). rewrite A2 in Hp. apply (Permutation_in _ (Permutation_sym Pm)) in Hp.
      destruct (dget par l) eqn:D; [eauto|]. apply dget_none in D. contradiction. }
    refine (keeps_ext r1 n _ _ _ _ _ _ _ _ _ K1).
    - intros j par Hj Hp. destruct (latest_row n i j par l (B j par) (P j par) ND) as [-> _]. destruct (G par Hp) as [v ->]. reflexivity.
    - intros j par Hj Hp. destruct (latest_row n i j par l (B j par) (P j par) ND) as [_ ->]. destruct (G par Hp) as [v ->]. reflexivity.
    - intros j Hj. apply latest_stat. }
  destruct fits; cbn [andb].
  - unfold set_fit_result. rewrite A3, LF. rewrite (proj2 (Nat.ltb_lt _ _) Hi). eexists. split; [reflexivity|].
    split; [exact Sh1|]. split; [exact A2|]. cbn [lr_fits]. split; [now rewrite set_nth_length|]. split; [exact K2|].
    intro j. cbn [option_map snd]. destruct (lt_dec j n) as [Hj|Hj].
    + rewrite (nth_error_nth' _ None) by (rewrite set_nth_length, LF; exact Hj). rewrite set_nth_get by (rewrite LF; exact Hi).
      destruct (j =? i); [reflexivity|]. symmetry. apply nth_error_nth'. rewrite LF. exact Hj.
    + destruct (Nat.eqb_spec j i); [lia|]. rewrite !(proj2 (nth_error_None _ _)); [reflexivity|rewrite LF; lia|rewrite set_nth_length, LF; lia].
  - exists r1. split; [reflexivity|]. split; [exact Sh1|]. split; [exact A2|]. split; [now rewrite A3|]. split; [exact K2|]. intro j. now rewrite A3.
Qed.

(** ** The loop *)
Section Loop.
Context {St : Type} (fit : St -> option Qc -> St * res fitsum).
Lemma scan_l n fits : forall l fs st st' r stats i B P S, fits_run fit st l st' fs -> i + length l = n ->
  shaped r n -> length (lr_fits r) = n -> keeps r n B P S -> ashape stats = [n] -> Forall (full_summary (gc_get_pars (lr_fit r))) fs ->
  exists r' stats', scan fit fits st r stats i l = (st', r', Ok stats') /\ shaped r' n /\ same_rest r' r /\ length (lr_fits r') = n /\
    keeps r' n (fun j par => if j <? i then B j par else best_at fs (j - i) par) (fun j par => if j <? i then P j par else pen_at fs (j - i) par) S /\
    ashape stats' = [n] /\ (forall j, j < n -> aget stats' [j] = if j <? i then aget stats [j] else stat_at fs (j - i)) /\
    forall j, j < n -> nth_error (lr_fits r') j =
      if (fits && negb (j <? i))%bool then option_map (fun x => Some (snd x)) (fm_results (nth (j - i) fs no_sum)) else nth_error (lr_fits r) j.
Proof.
  induction l as [|x l IH]; intros fs st st' r stats i B P S FR Ln Sh LF K SS FS.
  - destruct fs; [|contradiction]. cbn in FR, Ln. subst st'. exists r, stats. split; [reflexivity|]. split; [exact Sh|]. split; [apply rest_refl|]. split; [exact LF|].
    split; [|split; [exact SS|split]].
    + refine (keeps_ext r n _ _ _ _ _ _ _ _ _ K); intros; try reflexivity; rewrite (proj2 (Nat.ltb_lt _ _)) by lia; reflexivity.
    + intros j Hj. rewrite (proj2 (Nat.ltb_lt _ _)) by lia. reflexivity.
    + intros j Hj. rewrite (proj2 (Nat.ltb_lt _ _)) by lia. destruct fits; reflexivity.
  - destruct fs as [|f fs]; [contradiction|]. destruct FR as (s1 & F1 & FR). cbn [length] in Ln. inversion FS as [|? ? FS1 FS2]; subst.
    cbn [scan]. rewrite F1. rewrite SS. cbn [norm_indices]. rewrite norm_nat by lia. cbn [rbind].
    destruct (keep_fit_l fits r _ i f B P S Sh LF K ltac:(lia) FS1) as (r1 & E1 & Sh1 & R1 & LF1 & K1 & N1). rewrite E1.
    assert (RF : lr_fit r1 = lr_fit r) by apply R1.
    destruct (IH fs s1 st' r1 (aset stats [i] (fm_stat f)) (Datatypes.S i) _ _ S FR ltac:(lia) Sh1 LF1 K1 SS) as (r' & stats' & E2 & Sh2 & R2 & LF2 & K2 & SS2 & V2 & N2).
    { now rewrite RF. }
    exists r', stats'. split; [exact E2|]. split; [exact Sh2|]. split; [exact (rest_trans _ _ _ R2 R1)|]. split; [exact LF2|].
    assert (Q : forall j, j < i + Datatypes.S (length l) -> (j <? Datatypes.S i) = (j <? i) \/ j = i).
    { intros j Hj. destruct (Nat.ltb_spec j (Datatypes.S i)), (Nat.ltb_spec j i); auto; right; lia. }
    assert (Z : forall j, (j <? i) = false -> j <> i -> j - i = Datatypes.S (j - Datatypes.S i)).
    { intros j A C. apply Nat.ltb_ge in A. lia. }
    split; [|split; [exact SS2|split]].
    + refine (keeps_ext r' _ _ _ _ _ _ _ _ _ _ K2); try reflexivity.
      * intros j par Hj _. unfold best_at. destruct (Nat.eq_dec j i) as [->|NE].
        -- rewrite (proj2 (Nat.ltb_lt _ _)) by lia. rewrite Nat.eqb_refl, Nat.ltb_irrefl, Nat.sub_diag. reflexivity.
        -- destruct (Q j Hj) as [->|]; [|contradiction]. destruct (j <? i) eqn:L; [destruct (Nat.eqb_spec j i); [contradiction|reflexivity]|]. rewrite (Z j L NE). reflexivity.
      * intros j par Hj _. unfold pen_at. destruct (Nat.eq_dec j i) as [->|NE].
        -- rewrite (proj2 (Nat.ltb_lt _ _)) by lia. rewrite Nat.eqb_refl, Nat.ltb_irrefl, Nat.sub_diag. reflexivity.
        -- destruct (Q j Hj) as [->|]; [|contradiction]. destruct (j <? i) eqn:L; [destruct (Nat.eqb_spec j i); [contradiction|reflexivity]|]. rewrite (Z j L NE). reflexivity.
    + intros j Hj. rewrite V2 by exact Hj. unfold stat_at. cbn [aset aget idx_eqb]. rewrite Bool.andb_true_r. destruct (Nat.eq_dec j i) as [->|NE].
      * rewrite (proj2 (Nat.ltb_lt _ _)) by lia. rewrite Nat.eqb_refl, Nat.ltb_irrefl, Nat.sub_diag. reflexivity.
      * destruct (Q j Hj) as [->|]; [|contradiction]. destruct (j <? i) eqn:L; [destruct (Nat.eqb_spec j i); [contradiction|reflexivity]|]. rewrite (Z j L NE). reflexivity.
    + intros j Hj. rewrite N2 by exact Hj. rewrite N1. destruct fits; cbn [andb]; [|reflexivity]. destruct (Nat.eq_dec j i) as [->|NE].
      * rewrite (proj2 (Nat.ltb_lt i (Datatypes.S i))) by lia. rewrite Nat.eqb_refl, Nat.ltb_irrefl, Nat.sub_diag. reflexivity.
      * destruct (Q j Hj) as [->|]; [|contradiction]. destruct (j <? i) eqn:L; cbn [negb]; [destruct (Nat.eqb_spec j i); [contradiction|reflexivity]|]. rewrite (Z j L NE). reflexivity.
Qed.
End Loop.

(** ** Files *)
Lemma filterable_shape a : ashape a <> [] -> filterable a = true.
Proof. intro H. unfold filterable, andim. destruct (ashape a); [congruence|reflexivity]. Qed.
Lemma fit_groups_total dec : forall l i, Forall (fun o => match o with None => True | Some gs => ashape (gs_stats gs) <> [] /\ ashape (gs_pen gs) <> [] end) l ->
  exists m, fit_groups dec i l = Ok m.
Proof.
  induction l as [|o l IHl]; intros i F; [eexists; reflexivity|]. apply Forall_cons_iff in F as [F1 F2]. destruct (IHl (Datatypes.S i) F2) as [m E].
  cbn [fit_groups]. rewrite E. destruct o as [gs|]; [|eexists; reflexivity]. cbn [create_datasets app]. destruct F1 as [A B].
  rewrite (filterable_shape _ A), (filterable_shape _ B). eexists; reflexivity.
Qed.
Lemma dump_total dec f r n : ready r n -> exists f', dump_limit_results dec f r false = (f', None).
Proof.
  intros (Sh & LC & GC_ & _). unfold dump_limit_results. cbn [opened r_members dkeys map str_in existsb].
  destruct LC as [(rate & k & sub & R & En & S1 & S2 & S3 & S4) FF].
  assert (X : exists h, limit_group dec r = Ok h); [|destruct X as [h ->]; eauto].
  unfold limit_group. destruct (limit_config_l 0%Qc (lr_fit r) EmptyString GC_) as (dg & ds & _ & _ & GD & _). rewrite GD. cbn [rbind fst snd].
  destruct (create_datasets [] _) as [m o] eqn:E.
  assert (o = None).
  { destruct (aany (lr_pen r)), (aany (lr_best r)); cbn [app create_datasets] in E;
      rewrite ?(filterable_shape (lr_pen r)), ?(filterable_shape (lr_best r)), ?(filterable_shape (lr_stats r)) in E by (rewrite ?S1, ?S2, ?S3; discriminate);
      cbn [app create_datasets] in E; congruence. }
  subst o. destruct (existsb _ _); [|eauto]. destruct (fit_groups_total dec (lr_fits r) 0 FF) as [subs ->]. cbn [rbind]. eauto.
Qed.
Lemma ready_size r n : ready r n -> length (lr_fits r) = n.
Proof.
  intros ((_ & S & _) & [(rate & k & sub & R & En & S1 & S2 & S3 & S4) _] & _). rewrite S in S1. congruence.
Qed.
Lemma rate_again d : dget "rate"%string (map (fun kp => (fst kp, again false (fst kp) (snd kp))) d) = option_map (again false "rate"%string) (dget "rate"%string d).
Proof.
  induction d as [|[k v] d IH]; [reflexivity|]. cbn [map dget fst snd].
  destruct (String.eqb_spec "rate"%string k) as [<-|]; [reflexivity|exact IH].
Qed.
Lemma stored_l dec e d path r fs m fits : good_dec dec -> ready r (length fs) ->
  keeps r (length fs) (best_at fs) (pen_at fs) (fun i => stat_at fs i - m)%Qc ->
  (fits = true -> forall i, i < length fs -> nth_error (lr_fits r) i = option_map (fun x => Some (snd x)) (fm_results (nth i fs no_sum))) ->
  exists f', dump_limit_results dec (d path) r false = (f', None) /\ stored_at dec e d (wrote d path f') path r fs m fits.
Proof.
  intros GD Rd K FF. destruct (dump_total dec (d path) r _ Rd) as [f' D]. exists f'. split; [exact D|].
  pose proof Rd as (Sh & LC & GC_ & SB & SN & LN & LR_).
  destruct (limit_results_l dec e (d path) r false f' D LC GC_ GD SB SN LN LR_) as (lr' & L & E1 & E2 & E3 & E4 & E5 & E6 & E7 & E8 & E9 & E10).
  split. { intros p Hp. unfold wrote. destruct (String.eqb_spec p path); congruence. }
  exists lr'. unfold wrote. rewrite String.eqb_refl. split; [exact L|]. split; [exact E1|].
  assert (EP : gc_get_pars (lr_fit lr') = gc_get_pars (lr_fit r)).
  { unfold gc_get_pars, dkeys. apply (f_equal (map fst)) in E5. rewrite !map_map in E5. cbn [drop_best again_entry fst] in E5. exact E5. }
  split; [exact EP|]. pose proof Sh as (N & S1 & S2 & S3). destruct E7 as [E7 E7']. destruct E8 as [E8 E8'].
  assert (Sh' : shaped lr' (length fs)). { unfold shaped. rewrite EP, E6, <- E7, <- E8. auto. }
  split.
  { destruct (keeps_fun r _ _ _ _ Sh K) as [F1 F2].
    refine (keeps_ext lr' _ _ _ _ _ _ _ _ _ _ (keeps_own lr' _ Sh')).
    - intros i par Hi Hp. unfold best_of. rewrite EP. rewrite EP in Hp. destruct (pos_ok _ _ Hp) as (_ & Lp & _).
      rewrite <- E8' by (rewrite S3; repeat constructor; assumption). destruct (F1 i par Hi Hp) as [-> _]. reflexivity.
    - intros i par Hi Hp. unfold pen_of. rewrite EP. rewrite EP in Hp. destruct (pos_ok _ _ Hp) as (_ & Lp & _).
      rewrite <- E7' by (rewrite S2; repeat constructor; assumption). destruct (F1 i par Hi Hp) as [_ ->]. reflexivity.
    - intros i Hi. unfold stat_of. rewrite E6. symmetry. exact (F2 i Hi). }
  split.
  { intros x x' Hx Hx'. rewrite E4 in Hx'. cbn [sf_pars] in Hx'. rewrite rate_again, Hx in Hx'. cbn [option_map] in Hx'. injection Hx' as <-. repeat split. }
  assert (LF := ready_size _ _ Rd). split; [congruence|]. intros Ff i l gs Hi Hr.
  specialize (FF Ff i Hi). rewrite Hr in FF. cbn [option_map snd] in FF.
  destruct (nth_error (lr_fits lr') i) as [o'|] eqn:O; [|apply nth_error_None in O; lia].
  specialize (E10 i _ o' FF O). unfold fit_again_at in E10. destruct o' as [gs'|]; [|contradiction]. exists gs'. intuition.
Qed.

(** ** The log *)
Lemma dlookup_entry {A} (d : dict A) k v : NoDup (dkeys d) -> In (k, v) d -> dlookup k d = Ok v.
Proof.
  intros N I. unfold dlookup. replace (dget k d) with (Some v); [reflexivity|]. symmetry. revert N I.
  induction d as [|[k' v'] d IH]; intros N I; [contradiction|]. unfold dkeys in N. cbn [map fst] in N. apply NoDup_cons_iff in N as [N1 N2]. cbn [dget].
  destruct I as [I|I].
  - injection I as -> ->. now rewrite String.eqb_refl.
  - destruct (String.eqb_spec k k') as [->|]; [|now apply IH]. exfalso. apply N1. apply in_map_iff. now exists (k', v).
Qed.
Lemma log_par_l r n B P S i par : ready r n -> widths r -> keeps r n B P S -> i < n -> In par (gc_get_pars (lr_fit r)) ->
  exists prior sigma, log_par r i par = Ok (par, (B i par, prior, sigma, P i par)) /\
    exists e, dget par (gc_pars (lr_fit r)) = Some e /\ prior = fp_prior (cp_par (ge_par e)) /\ Some sigma = fp_sigma (cp_par (ge_par e)).
Proof.
  intros Rd W K Hi Ip. pose proof Rd as (Sh & _). pose proof Sh as (N & _). pose proof Ip as Ip'. unfold gc_get_pars, dkeys in Ip'. apply in_map_iff in Ip' as ([k en] & E & I). cbn in E. subst k.
  unfold log_par, gc_get_par. rewrite (dlookup_entry _ _ _ N I). cbn [rmap rbind].
  destruct K as (K & _). destruct (K (Z.of_nat i) i par (refers_nat n i) Hi Ip) as [-> ->]. cbn [rbind].
  unfold widths in W. rewrite Forall_forall in W. specialize (W _ I). cbn [snd] in W.
  assert (DG : dget par (gc_pars (lr_fit r)) = Some en). { pose proof (dlookup_entry _ _ _ N I) as D. unfold dlookup in D. destruct (dget par _); congruence. }
  destruct (fp_sigma _) as [s|] eqn:Es; [|congruence]. cbn [rbind]. do 2 eexists. split; [reflexivity|]. exists en. auto.
Qed.
Lemma rmapM_exists {A B} (f : A -> res B) (Q : A -> B -> Prop) l : (forall x, In x l -> exists y, f x = Ok y /\ Q x y) ->
  exists ys, rmapM f l = Ok ys /\ Forall2 Q l ys.
Proof.
  induction l as [|x l IH]; intro H; [exists []; split; [reflexivity|constructor]|].
  destruct (H x (or_introl eq_refl)) as (y & E & q). destruct IH as (ys & E' & q'); [intros; apply H; now right|].
  exists (y :: ys). cbn. rewrite E. cbn. rewrite E'. split; [reflexivity|now constructor].
Qed.
Lemma report_l r fs m full i fd x : ready r (length fs) -> widths r ->
  keeps r (length fs) (best_at fs) (pen_at fs) (fun i => stat_at fs i - m)%Qc -> i < length fs ->
  lr_get_full_stats r = Ok full ->
  exists rp, make_report r full i fd x = Ok rp /\ rp_found rp = fd /\ rp_decays rp = x /\ shows (lr_fit r) fs m rp i.
Proof.
  intros Rd W K Hi EF. unfold make_report.
  destruct (rmapM_exists (log_par r i) (fun par y => exists prior sigma, y = (par, (best_at fs i par, prior, sigma, pen_at fs i par)) /\
    exists e, dget par (gc_pars (lr_fit r)) = Some e /\ prior = fp_prior (cp_par (ge_par e)) /\ Some sigma = fp_sigma (cp_par (ge_par e))) (gc_get_pars (lr_fit r))) as (ys & E & F2).
  { intros par Ip. destruct (log_par_l r _ _ _ _ i par Rd W K Hi Ip) as (p & s & E & X). eexists. split; [exact E|]. exists p, s. auto. }
  rewrite E. cbn [rbind]. destruct K as (_ & _ & _ & _ & K). rewrite K in EF. injection EF as <-.
  rewrite (nth_error_nth' _ 0%Qc) by (rewrite map_length, seq_length; exact Hi). rewrite nth_map_seq by exact Hi.
  eexists. split; [reflexivity|]. split; [reflexivity|]. split; [reflexivity|]. unfold shows. cbn [rp_pars rp_stat].
  split; [|split; [|reflexivity]].
  - clear -F2. induction F2 as [|p y l ys (a & b & -> & _) F IH]; [reflexivity|]. cbn [map fst]. f_equal. exact IH.
  - clear -F2. intros par best prior sigma pen I. revert I. induction F2 as [|p y l ys (a & b & -> & X) F IH]; intro I; [contradiction|].
    destruct I as [I|I]; [|exact (IH I)]. injection I as -> <- <- <- <-. split; [reflexivity|]. split; [reflexivity|exact X].
Qed.

(** ** The call *)
Definition fine_fits (l : list (option gsearch)) : Prop :=
  Forall (fun o => match o with None => True | Some gs => ashape (gs_stats gs) <> [] /\ ashape (gs_pen gs) <> [] end) l.
Lemma ready_from r r' n : ready r n -> shaped r' n -> same_rest r' r -> length (lr_fits r') = n -> fine_fits (lr_fits r') -> ready r' n.
Proof.
  intros (Sh & LC & A & B & C & D & E) Sh' (R1 & R2 & R3 & R4 & R5) LF FF. unfold ready. rewrite R2, R3, R5.
  split; [exact Sh'|]. split; [|auto]. destruct LC as [(rate & k & sub & R & En & S1 & S2 & S3 & S4) _]. split; [|exact FF].
  destruct Sh as (_ & T1 & _). destruct Sh' as (_ & T1' & T2' & T3'). rewrite T1 in S1. injection S1 as -> <-.
  exists rate, (length (lr_fits r')), []. rewrite R5, LF. repeat split; auto.
Qed.
Lemma ready_fine r n : ready r n -> fine_fits (lr_fits r).
Proof. intros (_ & [_ F] & _). exact F. Qed.
Lemma with_stats_l r n B P S a : shaped r n -> keeps r n B P S -> ashape a = [n] ->
  shaped (lr_with_stats r a) n /\ keeps (lr_with_stats r a) n B P (fun i => aget a [i]).
Proof.
  intros Sh K Sa. pose proof Sh as (N & S1 & S2 & S3). assert (Sh' : shaped (lr_with_stats r a) n) by (repeat split; assumption).
  split; [exact Sh'|]. destruct (keeps_fun r n B P S Sh K) as [F1 F2].
  refine (keeps_ext _ n _ _ _ _ _ _ _ _ _ (keeps_own _ n Sh')).
  - intros i par Hi Hp. symmetry. exact (proj1 (F1 i par Hi Hp)).
  - intros i par Hi Hp. symmetry. exact (proj2 (F1 i par Hi Hp)).
  - reflexivity.
Qed.
Lemma fits_run_length {St} (fit : St -> option Qc -> St * res fitsum) : forall l s s' fs, fits_run fit s l s' fs -> length fs = length l.
Proof.
  induction l as [|x l IH]; intros s s' [|f fs] H; try contradiction; [reflexivity|]. destruct H as (s1 & _ & H). cbn. f_equal. exact (IH _ _ _ H).
Qed.
Lemma nth_skipn {A} (d : A) : forall b l k, nth k (skipn b l) d = nth (b + k) l d.
Proof.
  induction b as [|b IH]; intros l k; [reflexivity|]. destruct l as [|x l]; [destruct k; reflexivity|]. cbn. apply IH.
Qed.

Section Call.
Context {St : Type} (fit : St -> option Qc -> St * res fitsum) (lg : fpar -> res (list Qc)) (dec : nat -> string) (base : string).
Lemma reference_l w rq s1 m : reference fit (w_fit w) (rq_min rq) s1 m ->
  (if match rq_min rq with Some m => negb (qeq m 0) | None => false end
   then (w_fit w, Ok match rq_min rq with Some m => m | None => 0%Qc end)
   else let '(st', r) := fit (w_fit w) None in (st', rmap fm_stat r)) = (s1, Ok m).
Proof.
  unfold reference. destruct (rq_min rq) as [x|].
  - intros (A & -> & ->). destruct (qeq x 0) eqn:E; [apply qeq_iff in E; contradiction|reflexivity].
  - intros (f & -> & <-). reflexivity.
Qed.

Lemma limit_call_l e now rq (w : world (St := St)) scales s1 m s2 fs : good_dec dec ->
  ready (w_res w) (length scales) -> widths (w_res w) -> lr_get_scales lg (w_res w) = Ok scales -> scales <> [] ->
  reference fit (w_fit w) (rq_min rq) s1 m -> fits_run fit s1 scales s2 fs ->
  Forall (full_summary (gc_get_pars (lr_fit (w_res w)))) fs ->
  let n := length scales in
  let T := full_at (gc_get_pars (lr_fit (w_res w))) fs m in
  exists w' r b rp k, limit_call fit lg dec base now rq w = (w', r) /\ w_fit w' = s2 /\
    ready (w_res w') n /\ same_rest (w_res w') (w_res w) /\
    keeps (w_res w') n (best_at fs) (pen_at fs) (fun i => stat_at fs i - m)%Qc /\
    first_least (stat_at fs) n b /\ w_log w' = (w_log w ++ [rp])%list /\ shows (lr_fit (w_res w)) fs m rp k /\
    ((exists j, first_crossing T b n (rq_limit rq) j /\ k = j - b /\ rp_found rp = true /\ rp_decays rp = nth j scales 0%Qc /\
        r = (if rq_spectra rq then Err ETypeError else Ok (nth j scales 0%Qc)) /\
        if rq_store rq then stored_at dec e (w_disk w) (w_disk w') (found_name base now (w_res w) (rq_fname rq)) (w_res w) fs m (rq_fits rq)
        else w_disk w' = w_disk w) \/
     (exists j, (forall i, b <= i < n -> (T i <= rq_limit rq)%Qc) /\ first_greatest T b n j /\ k = j - b /\ rp_found rp = false /\ rp_decays rp = nth j scales 0%Qc /\
        r = Err (if rq_spectra rq then if rq_store rq then ETypeError else EException else ELimitError) /\
        if rq_store rq then stored_at dec e (w_disk w) (w_disk w') (default_name base now (w_res w)) (w_res w) fs m (rq_fits rq)
        else w_disk w' = w_disk w)).
Proof.
  intros GD Rd W SC NE RF FR FS n T. assert (LF := fits_run_length fit _ _ _ _ FR). fold n in LF.
  assert (P : 0 < n) by (unfold n; destruct scales; [congruence|cbn; lia]).
  pose proof Rd as (Sh & [(rate & n' & sub & R & En & S1 & S2 & S3 & S4) FF] & _).
  assert (Hn : n' = n). { pose proof Sh as (_ & X & _). rewrite X in S1. fold n in S1. congruence. } rewrite Hn in *. clear Hn n'.
  unfold limit_call, dlookup. rewrite R. rewrite (reference_l w rq s1 m RF), SC, <- En.
  destruct (scan_l fit n (rq_fits rq) scales fs s1 s2 (w_res w) (azeros [n]) 0 _ _ _ FR eq_refl Sh S4 (keeps_own _ _ Sh) eq_refl FS)
    as (r1 & stats & E1 & Sh1 & R1 & LF1 & K1 & SS & V & N1).
  rewrite E1. set (delta := amap (fun x => x - m)%Qc stats). assert (SD : ashape delta = [n]) by exact SS.
  assert (VD : forall j, j < n -> aget delta [j] = (stat_at fs j - m)%Qc).
  { intros j Hj. unfold delta. cbn [amap aget]. rewrite V by exact Hj. cbn [Nat.ltb Nat.leb]. now rewrite Nat.sub_0_r. }
  rewrite SD, c_order_one, map_map. set (v := fun j => aget delta [j]).
  destruct (argmin_list_spec (map v (seq 0 n))) as (b & A1 & A2 & A3 & A4 & A5). { destruct n; [lia|discriminate]. }
  rewrite map_length, seq_length in A2, A4. 
  replace (map (fun x => aget delta [x]) (seq 0 n)) with (map v (seq 0 n)) by reflexivity. rewrite A1.
  assert (VV : forall j, j < n -> nth j (map v (seq 0 n)) 0%Qc = (stat_at fs j - m)%Qc).
  { intros j Hj. rewrite nth_map_seq by exact Hj. now apply VD. }
  rewrite VV in A3 by exact A2. rewrite <- A3 in A4, A5.
  assert (FL : first_least (stat_at fs) n b).
  { split; [exact A2|]. split; intros j Hj.
    - specialize (A4 j Hj). rewrite VV in A4 by exact Hj. qlra.
    - specialize (A5 j Hj). rewrite VV in A5 by lia. qlra. }
  destruct (with_stats_l r1 n _ _ _ delta Sh1 K1 SD) as [Sh2 K2]. set (r2 := lr_with_stats r1 delta) in *.
  assert (K : keeps r2 n (best_at fs) (pen_at fs) (fun i => stat_at fs i - m)%Qc).
  { refine (keeps_ext r2 n _ _ _ _ _ _ _ _ _ K2); [| |exact VD]; intros; cbn [Nat.ltb Nat.leb]; now rewrite Nat.sub_0_r. }
  clear K1 K2. assert (R2 : same_rest r2 (w_res w)) by exact R1.
  assert (N2 : rq_fits rq = true -> forall i, i < length fs -> nth_error (lr_fits r2) i = option_map (fun x => Some (snd x)) (fm_results (nth i fs no_sum))).
  { intros H i Hi. change (lr_fits r2) with (lr_fits r1). rewrite N1 by lia. rewrite H. cbn [Nat.ltb Nat.leb negb andb]. now rewrite Nat.sub_0_r. }
  assert (Rd2 : ready r2 n).
  { apply (ready_from (w_res w)); [exact Rd|exact Sh2|exact R2|exact LF1|]. change (lr_fits r2) with (lr_fits r1).
    apply Forall_forall. intros o Ho. apply In_nth_error in Ho as (j & Hj).
    assert (Lj : j < n) by (rewrite <- LF1; apply nth_error_Some; congruence). rewrite N1 in Hj by exact Lj.
    destruct (rq_fits rq && negb (j <? 0))%bool.
    - rewrite Nat.sub_0_r in Hj. rewrite Forall_forall in FS. destruct (FS (nth j fs no_sum)) as (l & gs & E & _ & X & Y); [apply nth_In; lia|].
      rewrite E in Hj. cbn in Hj. injection Hj as <-. auto.
    - apply nth_error_In in Hj. unfold fine_fits in FF. rewrite Forall_forall in FF. exact (FF o Hj). }
  assert (Wd : widths r2). { unfold widths. destruct R2 as (_ & -> & _). exact W. }
  assert (PR : gc_get_pars (lr_fit r2) = gc_get_pars (lr_fit (w_res w))). { destruct R2 as (_ & -> & _). reflexivity. }
  assert (FU : lr_get_full_stats r2 = Ok (map T (seq 0 n))). { destruct K as (_ & _ & _ & _ & K). rewrite K, PR. reflexivity. }
  rewrite FU. assert (TN : forall j, j < n -> nth j (map T (seq 0 n)) 0%Qc = T j) by (intros; now apply nth_map_seq).
  assert (LT : length (map T (seq 0 n)) = n) by now rewrite map_length, seq_length.
  assert (NM : lr_name r2 = lr_name (w_res w)) by apply R2.
  assert (ST : forall path f', stored_at dec e (w_disk w) f' path r2 fs m (rq_fits rq) -> stored_at dec e (w_disk w) f' path (w_res w) fs m (rq_fits rq)).
  { intros path f' H. unfold stored_at in *. destruct R2 as (X1 & X2 & _ & _ & X5). rewrite X1, X2, X5 in H. exact H. }
  rewrite <- LF in Rd2, K.
  assert (RP := fun i fd x (Hi : i < length fs) => report_l r2 fs m (map T (seq 0 n)) i fd x Rd2 Wd K Hi FU). rewrite LF in RP. replace (lr_fit r2) with (lr_fit (w_res w)) in RP by (symmetry; apply R2).
  unfold found. rewrite LT.
  assert (FRW := first_row_spec (fun i => qlt (rq_limit rq) (nth i (map T (seq 0 n)) 0%Qc)) b (n - b) b eq_refl).
  destruct (first_row _ (seq b (n - b))) as [j|].
  - destruct FRW as (F1 & F2 & F3). rewrite (nth_error_nth' scales 0%Qc) by (unfold n in F1; lia).
    destruct (RP (j - b) true (nth j scales 0%Qc) ltac:(lia)) as (rp & E2 & Q1 & Q2 & Q3). rewrite E2.
    assert (CR : first_crossing T b n (rq_limit rq) j).
    { split; [lia|]. rewrite TN in F2 by lia. split; [now apply qlt_true|]. intros i Hi. specialize (F3 i Hi). rewrite TN in F3 by lia. now apply qlt_false. }
    destruct (stored_l dec e (w_disk w) (found_name base now r2 (rq_fname rq)) r2 fs m (rq_fits rq) GD Rd2 K N2) as (f' & D & Sd).
    apply ST in Sd. assert (FN : found_name base now r2 (rq_fname rq) = found_name base now (w_res w) (rq_fname rq)).
    { unfold found_name, default_name. now rewrite NM. }
    rewrite LF in K, Rd2.
    destruct (rq_store rq).
    + rewrite D. destruct (rq_spectra rq); (eexists; eexists; exists b, rp, (j - b); split; [reflexivity|]); cbn [w_fit w_res w_log w_disk];
        (repeat (split; [reflexivity || assumption|])); left; exists j; (repeat (split; [reflexivity || assumption|])); rewrite <- FN; exact Sd.
    + destruct (rq_spectra rq); (eexists; eexists; exists b, rp, (j - b); split; [reflexivity|]); cbn [w_fit w_res w_log w_disk];
        (repeat (split; [reflexivity || assumption|])); left; exists j; (repeat (split; [reflexivity || assumption|])); reflexivity.
  - unfold not_found.
    destruct (argmin_list_spec (map Qcopp (skipn b (map T (seq 0 n))))) as (k & K1 & K2 & K3 & K4 & K5).
    { intro Z. apply (f_equal (@length _)) in Z. rewrite map_length, skipn_length, LT in Z. cbn in Z. lia. }
    rewrite map_length, skipn_length, LT in K2, K4. rewrite K1. cbn [rbind].
    rewrite (nth_error_nth' scales 0%Qc) by (fold n; lia). cbn [rbind].
    destruct (RP k false (nth (b + k) scales 0%Qc) ltac:(lia)) as (rp & E2 & Q1 & Q2 & Q3). rewrite E2.
    assert (NTH : forall j, j < n - b -> nth j (map Qcopp (skipn b (map T (seq 0 n)))) 0%Qc = (- T (b + j)%nat)%Qc).
    { intros j Hj. rewrite (nth_indep _ 0%Qc (Qcopp 0)) by (rewrite map_length, skipn_length, LT; exact Hj). rewrite map_nth, nth_skipn. now rewrite TN by lia. }
    rewrite NTH in K3 by exact K2. rewrite <- K3 in K4, K5.
    assert (GR : first_greatest T b n (b + k)).
    { split; [lia|]. split; intros j Hj.
      - specialize (K4 (j - b) ltac:(lia)). rewrite NTH in K4 by lia. replace (b + (j - b)) with j in K4 by lia. qlra.
      - specialize (K5 (j - b) ltac:(lia)). rewrite NTH in K5 by lia. replace (b + (j - b)) with j in K5 by lia. qlra. }
    assert (BL : forall i, b <= i < n -> (T i <= rq_limit rq)%Qc).
    { intros i Hi. specialize (FRW i ltac:(lia)). cbn beta in FRW. rewrite TN in FRW by lia. now apply qlt_false. }
    destruct (stored_l dec e (w_disk w) (default_name base now r2) r2 fs m (rq_fits rq) GD Rd2 K N2) as (f' & D & Sd).
    apply ST in Sd. assert (FN : default_name base now r2 = default_name base now (w_res w)) by (unfold default_name; now rewrite NM).
    rewrite LF in K, Rd2. assert (KE : k = b + k - b) by lia.
    destruct (rq_store rq).
    + rewrite D. destruct (rq_spectra rq); (eexists; eexists; exists b, rp, k; split; [reflexivity|]); cbn [w_fit w_res w_log w_disk];
        (repeat (split; [reflexivity || assumption|])); right; exists (b + k); (repeat (split; [reflexivity || assumption|])); rewrite <- FN; exact Sd.
    + destruct (rq_spectra rq); (eexists; eexists; exists b, rp, k; split; [reflexivity|]); cbn [w_fit w_res w_log w_disk];
        (repeat (split; [reflexivity || assumption|])); right; exists (b + k); (repeat (split; [reflexivity || assumption|])); reflexivity.
Qed.
End Call.

Section Histories.
Context {St : Type} (fit : St -> option Qc -> St * res fitsum) (lg : fpar -> res (list Qc)) (dec : nat -> string) (base : string).
Lemma keep_ready fits r n i f : ready r n -> i < n -> full_summary (gc_get_pars (lr_fit r)) f ->
  exists r', keep_fit fits r i f = (r', None) /\ ready r' n /\ same_rest r' r.
Proof.
  intros Rd Hi FS. pose proof Rd as (Sh & _).
  destruct (keep_fit_l fits r n i f _ _ _ Sh (ready_size _ _ Rd) (keeps_own _ _ Sh) Hi FS) as (r' & E & Sh' & R' & L' & _ & N').
  exists r'. split; [exact E|]. split; [|exact R']. apply (ready_from r); auto. apply Forall_forall. intros o Ho. apply In_nth_error in Ho as (j & Hj).
  rewrite N' in Hj. destruct (fits && (j =? i))%bool.
  - destruct FS as (l & gs & E' & _ & X & Y). rewrite E' in Hj. cbn in Hj. injection Hj as <-. auto.
  - apply nth_error_In in Hj. assert (F := ready_fine _ _ Rd). unfold fine_fits in F. rewrite Forall_forall in F. exact (F o Hj).
Qed.
Lemma norm_out i n : n <= i -> exists e, norm_indices [Z.of_nat i] [n] = Err e.
Proof.
  intro H. cbn [norm_indices]. destruct (norm_index (Z.of_nat i) n) as [k|e] eqn:E; cbn [rbind]; [|eauto].
  exfalso. pose proof (norm_ok _ _ _ E) as L. apply (norm_refers n _ k L) in E. rewrite refers_of_nat in E. apply Nat.eqb_eq in E. lia.
Qed.
Lemma scan_ready fits n : forall l st r stats i st' r' o, ready r n -> ashape stats = [n] ->
  (forall s x s' f, fit s x = (s', Ok f) -> full_summary (gc_get_pars (lr_fit r)) f) ->
  scan fit fits st r stats i l = (st', r', o) -> ready r' n /\ same_rest r' r /\ (forall stats', o = Ok stats' -> ashape stats' = [n]).
Proof.
  induction l as [|x l IH]; intros st r stats i st' r' o Rd SS FF H; cbn [scan] in H.
  - injection H as _ <- <-. split; [exact Rd|]. split; [apply rest_refl|]. congruence.
  - destruct (fit st _) as [s1 [f|e]] eqn:E.
    + rewrite SS in H. destruct (lt_dec i n) as [Hi|Hi].
      * cbn [norm_indices] in H. rewrite norm_nat in H by exact Hi. cbn [rbind] in H.
        destruct (keep_ready fits r n i f Rd Hi (FF _ _ _ _ E)) as (r1 & E1 & Rd1 & R1). rewrite E1 in H.
        destruct (IH _ r1 (aset stats [i] (fm_stat f)) _ _ _ _ Rd1 SS ltac:(destruct R1 as (_ & -> & _); exact FF) H) as (A & B & C).
        split; [exact A|]. split; [exact (rest_trans _ _ _ B R1)|exact C].
      * destruct (norm_out i n ltac:(lia)) as [e E']. rewrite E' in H. injection H as _ <- <-. split; [exact Rd|]. split; [apply rest_refl|]. discriminate.
    + injection H as _ <- <-. split; [exact Rd|]. split; [apply rest_refl|]. discriminate.
Qed.
Lemma stats_ready r n a : ready r n -> ashape a = [n] -> ready (lr_with_stats r a) n.
Proof.
  intros Rd Sa. pose proof Rd as (Sh & _). pose proof (ready_size _ _ Rd) as L. apply (ready_from r); auto.
  - destruct (with_stats_l r n _ _ _ a Sh (keeps_own _ _ Sh) Sa) as [X _]. exact X.
  - repeat split.
  - exact (ready_fine _ _ Rd).
Qed.
Lemma call_ready now rq (w : world (St := St)) n : ready (w_res w) n ->
  (forall s x s' f, fit s x = (s', Ok f) -> full_summary (gc_get_pars (lr_fit (w_res w))) f) ->
  ready (w_res (fst (limit_call fit lg dec base now rq w))) n /\ same_rest (w_res (fst (limit_call fit lg dec base now rq w))) (w_res w).
Proof.
  intros Rd FF. pose proof Rd as (Sh & [(rate & n' & sub & R & En & S1 & S2 & S3 & S4) _] & _).
  assert (Hn : n' = n). { pose proof Sh as (_ & X & _). rewrite X in S1. congruence. } rewrite Hn in *. clear Hn n'.
  unfold limit_call, dlookup. rewrite R.
  destruct (if match rq_min rq with Some _ => _ | None => false end then _ else _) as [st1 [m|e]]; [|split; [exact Rd|apply rest_refl]].
  destruct (lr_get_scales lg (w_res w)) as [scales|e]; [|split; [exact Rd|apply rest_refl]].
  rewrite <- En. destruct (scan fit (rq_fits rq) st1 (w_res w) (azeros [n]) 0 scales) as [[st2 r2] o] eqn:E.
  destruct (scan_ready _ _ _ _ _ (azeros [n]) _ _ _ _ Rd eq_refl FF E) as (A & B & C).
  destruct o as [stats|e]; [|split; [exact A|exact B]].
  destruct (argmin_list _) as [b|e]; [|split; [exact A|exact B]].
  assert (A' := stats_ready r2 n (amap (fun x => (x - m)%Qc) stats) A (C _ eq_refl)).
  destruct (lr_get_full_stats _) as [full|e]; [|split; [exact A'|exact B]].
  match goal with |- context [fst (match ?x with _ => _ end)] => destruct x as [[d lg'] r] end. split; [exact A'|exact B].
Qed.
Lemma calls_ready n : forall l (w : world (St := St)), ready (w_res w) n ->
  (forall s x s' f, fit s x = (s', Ok f) -> full_summary (gc_get_pars (lr_fit (w_res w))) f) ->
  ready (w_res (fst (limit_calls fit lg dec base l w))) n /\ same_rest (w_res (fst (limit_calls fit lg dec base l w))) (w_res w).
Proof.
  induction l as [|[now rq] l IH]; intros w Rd FF; [split; [exact Rd|apply rest_refl]|]. cbn [limit_calls].
  destruct (call_ready now rq w n Rd FF) as [A B]. destruct (limit_call fit lg dec base now rq w) as [w1 r]. cbn [fst] in *.
  destruct (IH w1 A ltac:(destruct B as (_ & -> & _); exact FF)) as [C D]. destruct (limit_calls fit lg dec base l w1) as [w2 rs]. cbn [fst] in *.
  split; [exact C|exact (rest_trans _ _ _ D B)].
Qed.
Lemma scan_err fits n : forall pre fs st st1 st2 r stats i x post e, ready r n -> ashape stats = [n] -> i + length pre < n ->
  fits_run fit st pre st1 fs -> Forall (full_summary (gc_get_pars (lr_fit r))) fs ->
  fit st1 (if isclose x 0 then None else Some x) = (st2, Err e) ->
  exists r', scan fit fits st r stats i (pre ++ x :: post) = (st2, r', Err e).
Proof.
  induction pre as [|y pre IH]; intros fs st st1 st2 r stats i x post e Rd SS L FR FS E; destruct fs as [|f fs]; try contradiction.
  - cbn in FR. subst st1. cbn [app scan]. rewrite E. eauto.
  - destruct FR as (s1 & F1 & FR). apply Forall_cons_iff in FS as [FS1 FS2]. cbn [length] in L. cbn [app scan]. rewrite F1, SS. cbn [norm_indices]. rewrite norm_nat by lia. cbn [rbind].
    destruct (keep_ready fits r n i f Rd ltac:(lia) FS1) as (r1 & E1 & Rd1 & R1). rewrite E1.
    eapply IH; [exact Rd1|exact SS|lia|exact FR| |exact E]. destruct R1 as (_ & -> & _). exact FS2.
Qed.
Lemma raises_l now rq (w : world (St := St)) pre x post s1 m s2 s3 fs e : 
  ready (w_res w) (length (pre ++ x :: post)) -> lr_get_scales lg (w_res w) = Ok (pre ++ x :: post) ->
  reference fit (w_fit w) (rq_min rq) s1 m -> fits_run fit s1 pre s2 fs ->
  Forall (full_summary (gc_get_pars (lr_fit (w_res w)))) fs -> fit s2 (if isclose x 0 then None else Some x) = (s3, Err e) ->
  exists r', limit_call fit lg dec base now rq w = (World s3 r' (w_disk w) (w_log w), Err e).
Proof.
  intros Rd SC RF FR FS E. pose proof Rd as (Sh & [(rate & n' & sub & R & En & S1 & S2 & S3 & S4) _] & _).
  assert (Hn : n' = length (pre ++ x :: post)). { pose proof Sh as (_ & X & _). rewrite X in S1. congruence. }
  unfold limit_call, dlookup. rewrite R, (reference_l fit w rq s1 m RF), SC, <- En, Hn.
  destruct (scan_err (rq_fits rq) _ pre fs s1 s2 s3 (w_res w) (azeros [length (pre ++ x :: post)]) 0 x post e Rd eq_refl) as [r' E']; auto.
  { rewrite app_length. cbn. lia. }
  rewrite E'. eauto.
Qed.
End Histories.

Lemma name_l base now lr n : n <> EmptyString -> asked_name n (found_name base now lr (Some n)).
Proof.
  intro NE. unfold asked_name, found_name. destruct n as [|c n]; [congruence|].
  set (s := String c n) in *. destruct (String.eqb_spec (last_n 5 s) ".hdf5") as [E|E].
  - left. destruct (le_lt_dec 5 (String.length s)) as [L|L].
    + destruct (last_n_split 5 s L) as [a Ea]. rewrite E in Ea. exists a. split; [exact Ea|reflexivity].
    + rewrite (last_n_short 5 s L) in E. exists EmptyString. split; [exact E|reflexivity].
  - right. split; [|reflexivity]. intros stem H. apply E. rewrite H. now apply last_n_app.
Qed.

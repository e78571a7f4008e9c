From Coq Require Import Reals Lra Lia Sorting.
From Verif Require Import Model.Base Model.FitGrid Model.Check Spec.CheckSpec Proofs.GridLemmas.
Local Open Scope R_scope.

Lemma T12 : IZR (10 ^ 12) = 1000000000000. Proof. reflexivity. Qed.
Lemma T13 : IZR (10 ^ 13) = 10000000000000. Proof. reflexivity. Qed.

Lemma bad_spec c v : bad c v = true <-> ~ allowed c v.
Proof.
  unfold bad, allowed. destruct (ck_min c) as [m|], (ck_max c) as [M|];
  repeat match goal with |- context [Rlt_dec ?a ?b] => destruct (Rlt_dec a b) end; cbn; split; intro H;
  try reflexivity; try discriminate;
  try (intros [A B]; first [specialize (A _ eq_refl); lra | specialize (B _ eq_refl); lra]);
  exfalso; apply H; split; intros x E; try discriminate; injection E as <-; lra.
Qed.
Lemma fail_filter c l : fail (allowed c) l (length (filter (bad c) l)).
Proof.
  induction l as [|v l IH]; cbn; [constructor|]. destruct (bad c v) eqn:B.
  - cbn. apply fail_bad; [apply bad_spec, B|exact IH].
  - apply fail_good; [|exact IH].
    unfold bad, allowed in *. destruct (ck_min c) as [m|], (ck_max c) as [M|];
    repeat match goal with H : context [Rlt_dec ?a ?b] |- _ => destruct (Rlt_dec a b) end; cbn in B; try discriminate;
    split; intros x E; try discriminate; injection E as <-; lra.
Qed.
Lemma fail_none P l : fail P l 0 <-> Forall P l.
Proof.
  split.
  - intro H. remember 0%nat as z eqn:Z. induction H; [constructor|constructor; auto|discriminate].
  - induction 1; constructor; assumption.
Qed.

(** rint gives n exactly for |x - n| < 1/2, and at the ends when n is even. *)
Lemma rint_even x n : Z.even n = true -> rint x = n <-> Rabs (x - IZR n) <= 1 / 2.
Proof.
  intro E. split.
  - intros <-. pose proof (rint_near x) as [A B]. apply Rabs_le. lra.
  - intro H. assert (A : IZR n - 1/2 <= x <= IZR n + 1/2) by (pose proof (Rle_abs (x - IZR n)); pose proof (Rle_abs (- (x - IZR n))); rewrite Rabs_Ropp in *; lra).
    destruct (Rlt_le_dec x (IZR n)) as [L|L].
    + assert (I : (n - 1)%Z = Int_part x) by (apply Int_part_uniq; rewrite minus_IZR; lra).
      unfold rint. rewrite <- I, minus_IZR.
      destruct (Rlt_dec _ _); [lra|]. destruct (Rlt_dec _ _); [lia|].
      replace (Z.even (n - 1)) with false; [lia|].
      rewrite Z.even_sub, E. reflexivity.
    + assert (I : n = Int_part x) by (apply Int_part_uniq; lra).
      unfold rint. rewrite <- I. destruct (Rlt_dec _ _); [reflexivity|].
      destruct (Rlt_dec _ _); [lra|]. rewrite E. reflexivity.
Qed.
Lemma rint_Z n : rint (IZR n) = n.
Proof.
  pose proof (rint_near (IZR n)) as [A B].
  assert (C : -1 < IZR (rint (IZR n) - n) < 1) by (rewrite minus_IZR; lra). destruct C as [C D].
  apply lt_IZR in C. apply lt_IZR in D. lia.
Qed.
Lemma around_one : around12 1 = 1.
Proof. unfold around12. rewrite Rmult_1_l, rint_Z. rewrite T12. field. Qed.
Lemma around_spec x : around12 x = around12 1 <-> Rabs (x - 1) <= 5 / IZR (10 ^ 13).
Proof.
  rewrite around_one. unfold around12.
  assert (E : IZR (rint (x * IZR (10 ^ 12))) / IZR (10 ^ 12) = 1 <-> rint (x * IZR (10 ^ 12)) = (10 ^ 12)%Z).
  { split.
    - intro H. apply eq_IZR. apply (Rmult_eq_compat_r (IZR (10 ^ 12))) in H. rewrite Rmult_1_l in H.
      unfold Rdiv in H. rewrite Rmult_assoc, Rinv_l, Rmult_1_r in H by (rewrite T12; lra). exact H.
    - intros ->. field. rewrite T12. lra. }
  rewrite E, rint_even by reflexivity. rewrite T12, T13.
  replace (x * 1000000000000 - 1000000000000) with ((x - 1) * 1000000000000) by ring.
  rewrite Rabs_mult, (Rabs_pos_eq 1000000000000) by lra. lra.
Qed.
Lemma at_prior_spec p v : at_prior p v = true <-> as_prior p v.
Proof.
  unfold at_prior, as_prior. destruct (Req_EM_T p 0) as [Z|N]; [split; [discriminate|intros [H _]; contradiction]|].
  assert (Q : Rabs (v / p - 1) <= 5 / IZR (10 ^ 13) <-> Rabs (v - p) <= Rabs p * (5 / IZR (10 ^ 13))).
  { replace (v - p) with (p * (v / p - 1)) by (field; exact N). rewrite Rabs_mult.
    pose proof (Rabs_pos_lt _ N). split; intro H1.
    - apply Rmult_le_compat_l; [lra|exact H1].
    - apply Rmult_le_reg_l in H1; [exact H1|lra]. }
  destruct (Req_EM_T _ _) as [E|E]; rewrite around_spec in E.
  - split; [intros _; split; [exact N|apply Q, E]|reflexivity].
  - split; [discriminate|]. intros [_ H]. apply Q in H. contradiction.
Qed.

Lemma check_l c l : ck_get_values c = Ok l ->
  exists n ws, check_values false c = (ws, None) /\ NoDup ws /\ fail (allowed c) l n /\
    (forall m, In (WOutside m) ws <-> m = n /\ n <> 0%nat) /\
    (In WNoPrior ws <-> forall v, In v l -> ~ as_prior (gr_prior (ck_grid c)) v).
Proof.
  intro E. unfold check_values. rewrite E. set (n := length (filter (bad c) l)). cbv zeta.
  set (b := existsb (at_prior (gr_prior (ck_grid c))) l).
  assert (P : b = true <-> exists v, In v l /\ as_prior (gr_prior (ck_grid c)) v).
  { unfold b. rewrite existsb_exists. split; intros (v & I & A); exists v; (split; [exact I|apply at_prior_spec, A]). }
  exists n, ((if (n =? 0)%nat then [] else [WOutside n]) ++ (if b then [] else [WNoPrior])).
  split; [|split; [|split; [apply fail_filter|split]]].
  - unfold andthen, warn. destruct (n =? 0)%nat, b; reflexivity.
  - destruct (n =? 0)%nat, b; cbn; repeat constructor; cbn; intuition discriminate.
  - intro m. destruct (Nat.eqb_spec n 0), b; cbn; split; intros H; repeat (destruct H as [H|H]); try discriminate; try tauto;
    try (injection H as <-; tauto).
    all: destruct H as [-> _]; auto.
  - split.
    + intros H v I A. assert (B : b = true) by (apply P; exists v; tauto). rewrite B in H.
      rewrite app_nil_r in H. destruct (n =? 0)%nat; cbn in H; intuition discriminate.
    + intro H. destruct b eqn:B; [|apply in_or_app; right; left; reflexivity].
      destruct (proj1 P eq_refl) as (v & I & A). destruct (H v I A).
Qed.
Lemma check_err c e : ck_get_values c = Err e -> forall m, check_values m c = ([], Some (Raises e)).
Proof. intros E m. unfold check_values. rewrite E. reflexivity. Qed.
Lemma cautious_l c ws : check_values false c = (ws, None) -> check_values true c = ([], option_map Warns (hd_error ws)).
Proof.
  unfold check_values. destruct (ck_get_values c) as [l|e]; [|discriminate]. cbv zeta. intro H.
  destruct (length _ =? 0)%nat, (existsb _ l); unfold andthen, warn in *; cbn in *; injection H as <-; reflexivity.
Qed.
Lemma check_cases c : (exists e, ck_get_values c = Err e) \/ (exists ws, check_values false c = (ws, None)).
Proof.
  destruct (ck_get_values c) as [l|e] eqn:E; [right|left; eauto].
  destruct (check_l c l E) as (n & ws & H & _). eauto.
Qed.
Lemma cautious_quiet c : check_values true c = ([], None) <-> quiet c.
Proof.
  unfold quiet. destruct (check_cases c) as [[e E]|[ws E]].
  - rewrite !(check_err _ _ E). split; discriminate.
  - rewrite (cautious_l _ _ E), E. destruct ws; cbn; split; try discriminate; intro H; reflexivity.
Qed.
Lemma cautious_fst c : fst (check_values true c) = [].
Proof.
  destruct (check_cases c) as [[e E]|[ws E]]; [rewrite (check_err _ _ E); reflexivity|rewrite (cautious_l _ _ E); reflexivity].
Qed.

Lemma config_cautious pars : check_config true pars = ([], None) <-> (forall n c, In (n, c) pars -> quiet c).
Proof.
  induction pars as [|[n c] r IH]; cbn [check_config]; [split; [intros _ n c []|reflexivity]|].
  pose proof (cautious_quiet c) as Q. pose proof (cautious_fst c) as F.
  destruct (check_values true c) as [ws s] eqn:E. cbn in F. subst ws. unfold andthen, named. cbn.
  destruct s as [s|].
  - split; [discriminate|]. intro H. assert (X : quiet c) by (apply (H n); left; reflexivity). apply Q in X. discriminate.
  - destruct (check_config true r) as [ws s] eqn:ER. cbn. rewrite IH. split.
    + intros H m d [I|I]; [injection I as <- <-; apply Q; reflexivity|eapply H, I].
    + intros H m d I. eapply H. right. exact I.
Qed.
Lemma config_cautious_fst pars : fst (check_config true pars) = [].
Proof.
  induction pars as [|[n c] r IH]; cbn [check_config]; [reflexivity|].
  pose proof (cautious_fst c) as F. destruct (check_values true c) as [ws s]. cbn in F. subst ws.
  unfold andthen, named. cbn. destruct s; cbn; [reflexivity|exact IH].
Qed.
Lemma config_warnings pars : (forall n c, In (n, c) pars -> exists l, ck_get_values c = Ok l) ->
  exists ws, check_config false pars = (ws, None) /\
    (forall n w, In (n, w) ws <-> exists c, In (n, c) pars /\ In w (fst (check_values false c))).
Proof.
  induction pars as [|[n c] r IH]; cbn [check_config]; intro H.
  - exists []. split; [reflexivity|]. intros n w. split; [intros []|intros (c & [] & _)].
  - destruct (H n c (or_introl eq_refl)) as [l E]. destruct (check_l c l E) as (k & ws & W & _).
    destruct IH as (ws' & W' & I'); [intros m d I; apply (H m d); right; exact I|].
    rewrite W, W'. unfold andthen, named. cbn. eexists. split; [reflexivity|].
    intros m w. rewrite in_app_iff, I', in_map_iff. split.
    + intros [(x & X & I)|(d & I & X)].
      * injection X as <- <-. exists c. rewrite W. split; [left; reflexivity|exact I].
      * exists d. split; [right; exact I|exact X].
    + intros (d & [I|I] & X).
      * injection I as <- <-. left. exists w. rewrite W in X. split; [reflexivity|exact X].
      * right. exists d. split; assumption.
Qed.

(** Which parameters the configuration of the fit holds in the end. *)
Lemma put_par_in n e l m x : In (m, x) (put_par n e l) -> (m = n /\ x = e) \/ (In (m, x) l /\ (NoDup (map fst l) -> m <> n)).
Proof.
  induction l as [|[k y] r IH]; cbn.
  - intros [H|[]]. injection H as <- <-. left. split; reflexivity.
  - destruct (String.eqb_spec k n) as [->|N]; cbn; intros [H|H].
    + injection H as <- <-. left. split; reflexivity.
    + right. split; [right; exact H|]. intros D. inversion D as [|? ? D1 D2]; subst. intros ->. apply D1.
      apply in_map_iff. exists (n, x). split; [reflexivity|exact H].
    + injection H as <- <-. right. split; [left; reflexivity|intros _; exact N].
    + destruct (IH H) as [L|[I U]]; [left; exact L|right]. split; [right; exact I|].
      intro D. inversion D; subst. auto.
Qed.
Lemma put_par_keep n e l m x : m <> n -> In (m, x) l -> In (m, x) (put_par n e l).
Proof.
  intro N. induction l as [|[k y] r IH]; cbn; [intros []|]. intros [H|H].
  - injection H as -> ->. destruct (String.eqb_spec m n); [contradiction|left; reflexivity].
  - destruct (k =? n)%string; right; auto.
Qed.
Lemma put_par_keys n e l : NoDup (map fst l) -> NoDup (map fst (put_par n e l)).
Proof.
  induction l as [|[k y] r IH]; cbn; intro D; [repeat constructor; intros []|].
  inversion D as [|? ? D1 D2]; subst. destruct (String.eqb_spec k n) as [->|N]; cbn; constructor; auto.
  intro I. apply in_map_iff in I. destruct I as [[m x] [E I]]. cbn in E. subst m.
  destruct (put_par_in _ _ _ _ _ I) as [[E _]|[I' _]]; [congruence|]. apply D1. apply in_map_iff. exists (k, x). auto.
Qed.
Lemma put_all_keys s ps l : NoDup (map fst l) -> NoDup (map fst (put_all s ps l)).
Proof. revert l. induction ps as [|[n c] r IH]; cbn; intros l D; [exact D|]. apply IH, put_par_keys, D. Qed.
Lemma put_all_in s ps l m g x : NoDup (map fst l) -> In (m, (g, x)) (put_all s ps l) ->
  (g = false /\ exists n, In (n, x) ps) \/ (In (m, (g, x)) l /\ forall n c, In (n, c) ps -> m <> full s n).
Proof.
  revert l. induction ps as [|[n c] r IH]; cbn; intros l D H; [right; split; [exact H|intros ? ? []]|].
  destruct (IH _ (put_par_keys _ _ _ D) H) as [(G & k & I)|[I U]].
  - left. split; [exact G|]. exists k. right. exact I.
  - destruct (put_par_in _ _ _ _ _ I) as [[E1 E2]|[I' N]].
    + injection E2 as -> ->. left. split; [reflexivity|]. exists n. left. reflexivity.
    + right. split; [exact I'|]. intros k d [E|E]; [injection E as <- <-; apply N, D|eapply U, E].
Qed.
Lemma put_all_keep s ps l m x : (forall n c, In (n, c) ps -> m <> full s n) -> In (m, x) l -> In (m, x) (put_all s ps l).
Proof.
  revert l. induction ps as [|[n c] r IH]; cbn; intros l N I; [exact I|].
  apply IH; [intros k d J; eapply N; right; exact J|]. apply put_par_keep; [|exact I]. eapply N. left. reflexivity.
Qed.
Lemma floats_cautious fs : forall l x l', check_floats true fs l = (x, l') -> NoDup (map fst l) ->
  fst x = [] /\ (snd x = None <-> floats_quiet fs) /\
  (snd x = None -> (forall m c, In (m, (false, c)) l' -> (quiet c \/ In (m, (false, c)) l /\ not_float fs m)) /\
                   (forall m y, In (m, y) l -> not_float fs m -> In (m, y) l')).
Proof.
  induction fs as [|[s [ps|]] fs IH]; cbn [check_floats]; intros l x l' E D.
  - injection E as <- <-. cbn. split; [reflexivity|]. split; [split; [intros _ s ps n c []|reflexivity]|].
    intros _. split; [intros m c I; right; split; [exact I|intros ? ? ? ? []]|intros m y I _; exact I].
  - pose proof (config_cautious ps) as C. pose proof (config_cautious_fst ps) as F.
    destruct (check_config true ps) as [ws st] eqn:EC. cbn in F. subst ws. cbn in E. destruct st as [st|].
    + injection E as <- <-. cbn. split; [reflexivity|]. split; [|discriminate]. split; [discriminate|].
      intro Q. exfalso. assert (X : ([] : list (string * warning), Some st) = ([], None)).
      { apply C. intros n c I. eapply Q; [left; reflexivity|exact I]. } discriminate.
    + destruct (check_floats true fs (put_all s ps l)) as [y l2] eqn:EF.
      destruct (IH _ _ _ EF (put_all_keys _ _ _ D)) as (F2 & Q2 & K2). unfold andthen in E. cbn in E. injection E as <- <-. cbn.
      split; [exact F2|]. split.
      * rewrite Q2. split.
        -- intros Q s' ps' n c [I|I] J; [injection I as <- <-; eapply (proj1 C eq_refl), J|eapply Q; eassumption].
        -- intros Q s' ps' n c I J. eapply Q; [right; exact I|exact J].
      * intro N. destruct (K2 N) as [K3 K4]. split.
        -- intros m c I. destruct (K3 m c I) as [Q|[I2 NF]]; [left; exact Q|].
           destruct (put_all_in _ _ _ _ _ _ D I2) as [(_ & n & J)|[J U]]; [left; eapply (proj1 C eq_refl), J|].
           right. split; [exact J|]. intros s' ps' n d [X|X] Y; [injection X as <- <-; eapply U, Y|eapply NF; eassumption].
        -- intros m y' I NF. apply K4; [|intros s' ps' n d X Y; eapply NF; [right; exact X|exact Y]].
           apply put_all_keep; [|exact I]. intros n c J. eapply NF; [left; reflexivity|exact J].
  - destruct (IH _ _ _ E D) as (F2 & Q2 & K2). split; [exact F2|]. split.
    + rewrite Q2. split; intros Q s' ps' n c I J; [destruct I as [I|I]; [discriminate|]; eapply Q; eassumption|eapply Q; [right; exact I|exact J]].
    + intro N. destruct (K2 N) as [K3 K4]. split.
      * intros m c I. destruct (K3 m c I) as [Q|[I2 NF]]; [left; exact Q|right]. split; [exact I2|].
        intros s' ps' n d [X|X] Y; [discriminate|eapply NF; eassumption].
      * intros m y' I NF. apply K4; [exact I|]. intros s' ps' n d X Y. eapply NF; [right; exact X|exact Y].
Qed.
Lemma spectra_in l n c : In (n, c) (spectra_pars l) <-> In (n, (false, c)) l.
Proof.
  unfold spectra_pars. rewrite in_map_iff. split.
  - intros ([m [g d]] & E & I). apply filter_In in I. destruct I as [I G]. cbn in *. injection E as -> ->. destruct g; [discriminate|exact I].
  - intro I. exists (n, (false, c)). split; [reflexivity|]. apply filter_In. split; [exact I|reflexivity].
Qed.
Lemma fit_cautious given floats : NoDup (map fst given) ->
  check_fit true given floats = ([], None) <->
  floats_quiet floats /\ (forall m c, In (m, (false, c)) given -> not_float floats m -> quiet c).
Proof.
  intro D. unfold check_fit. destruct (check_floats true floats given) as [x l] eqn:E.
  destruct (floats_cautious _ _ _ _ E D) as (F & Q & K). destruct x as [ws st]. cbn in F, Q, K. subst ws.
  unfold andthen. destruct st as [st|]; cbn.
  - split; [discriminate|]. intros [H _]. apply Q in H. discriminate.
  - pose proof (proj1 Q eq_refl) as FQ. destruct (K eq_refl) as [K1 K2].
    pose proof (config_cautious (spectra_pars l)) as C. destruct (check_config true (spectra_pars l)) as [w s].
    rewrite C. split.
    + intro H. split; [exact FQ|]. intros m c I NF. eapply H, spectra_in, K2; eassumption.
    + intros [_ H] n c I. apply spectra_in in I. destruct (K1 _ _ I) as [X|[X Y]]; [exact X|eapply H; eassumption].
Qed.

(** ** Grids *)
Lemma no_prior_warning c l v ws : ck_get_values c = Ok l -> check_values false c = (ws, None) ->
  In v l -> as_prior (gr_prior (ck_grid c)) v -> ~ In WNoPrior ws.
Proof.
  intros E H I A W. destruct (check_l c l E) as (n & ws' & H' & _ & _ & _ & P). rewrite H in H'. injection H' as <-.
  apply (proj1 P W v I A).
Qed.
Lemma as_prior_self p : p <> 0 -> as_prior p p.
Proof.
  intro N. split; [exact N|]. rewrite Rminus_diag_eq, Rabs_R0 by reflexivity.
  apply Rmult_le_pos; [apply Rabs_pos|rewrite T13; lra].
Qed.
Lemma IZR_odd k : IZR (2 * k + 1 - 1) = 2 * IZR k.
Proof. replace (2 * k + 1 - 1)%Z with (2 * k)%Z by lia. rewrite mult_IZR. reflexivity. Qed.
Lemma rlin_mid a b k : (1 <= k)%Z -> exists l, rlinspace a b (2 * k + 1) = Ok l /\ In ((a + b) / 2) l.
Proof.
  intro K. rewrite rlin_ok by lia. eexists. split; [reflexivity|]. apply in_map_iff. exists (Z.to_nat k). split.
  - rewrite INR_Z by lia. rewrite IZR_odd. assert (1 <= IZR k) by (apply IZR_le; exact K). field. lra.
  - apply in_seq. lia.
Qed.
Lemma linear_odd_l low high prior k mn mx : (1 <= k)%Z -> low + high = 2 * prior -> prior <> 0 ->
  exists ws, check_values false (CK (Grid low high prior (2 * k + 1) false false) None mn mx) = (ws, None) /\ ~ In WNoPrior ws.
Proof.
  intros K M N. set (c := CK _ _ _ _). destruct (rlin_mid low high k K) as (l & E & I).
  assert (V : ck_get_values c = Ok l) by exact E.
  destruct (check_l c l V) as (n & ws & W & _). exists ws. split; [exact W|].
  apply (no_prior_warning c l ((low + high) / 2) ws V W I). cbn [ck_grid c gr_prior].
  replace ((low + high) / 2) with prior by lra. apply as_prior_self, N.
Qed.
Lemma log_odd_l low high prior k mn mx dev : (1 <= k)%Z -> 0 < low -> 0 < high -> 0 < prior -> low * high = prior * prior ->
  exists ws, check_values false (CK (Grid low high prior (2 * k + 1) true dev) None mn mx) = (ws, None) /\ ~ In WNoPrior ws.
Proof.
  intros K L H P M. set (c := CK _ _ _ _). destruct (rlin_mid (ln low) (ln high) k K) as (l & E & I).
  assert (V : ck_get_values c = Ok (map exp l)).
  { cbn [ck_get_values c ck_values ck_grid]. unfold grid_values. cbn [gr_logscale]. unfold log_values. cbn [gr_low gr_high gr_bins].
    destruct (Rle_dec high 0); [lra|]. destruct (Rle_dec low 0); [lra|]. cbv zeta. rewrite E. reflexivity. }
  destruct (check_l c _ V) as (n & ws & W & _). exists ws. split; [exact W|].
  apply (no_prior_warning c _ prior ws V W).
  - apply in_map_iff. exists ((ln low + ln high) / 2). split; [|exact I].
    rewrite <- ln_mult, M, ln_mult by assumption. replace ((ln prior + ln prior) / 2) with (ln prior) by lra. apply exp_ln, P.
  - cbn [ck_grid c gr_prior]. apply as_prior_self. lra.
Qed.
Lemma deviation_l low high prior bins mn mx : low <= prior -> prior <= high -> low < high -> (0 <= bins)%Z -> prior <> 0 ->
  (1 <= rint ((prior - low) / (high - low) * (IZR bins + 1)))%Z ->
  exists ws, check_values false (CK (Grid low high prior bins false true) None mn mx) = (ws, None) /\ ~ In WNoPrior ws.
Proof.
  intros A B C D N S. set (c := CK _ _ _ _). destruct (dev_l low high prior bins A B C D) as (l & E & _ & _ & _ & P & _).
  assert (V : ck_get_values c = Ok l) by exact E.
  destruct (check_l c l V) as (n & ws & W & _). exists ws. split; [exact W|].
  apply (no_prior_warning c l prior ws V W (P S)). cbn [ck_grid c gr_prior]. apply as_prior_self, N.
Qed.
Lemma linear_even_l low high prior k mn mx : (1 <= k)%Z -> low < high -> low + high = 2 * prior ->
  Rabs prior * (5 / IZR (10 ^ 13)) < (high - low) / IZR (2 * (2 * k - 1)) ->
  exists ws, check_values false (CK (Grid low high prior (2 * k) false false) None mn mx) = (ws, None) /\ In WNoPrior ws.
Proof.
  intros K L M H. set (c := CK _ _ _ _).
  assert (V : ck_get_values c = rlinspace low high (2 * k)) by reflexivity. rewrite rlin_ok in V by lia.
  destruct (check_l c _ V) as (n & ws & W & _ & _ & _ & P). exists ws. split; [exact W|]. apply P.
  intros v I. apply in_map_iff in I. destruct I as (j & <- & J). cbn [ck_grid c gr_prior]. intros [_ A]. apply (Rlt_not_le _ _ H).
  eapply Rle_trans; [|exact A].
  assert (K0 : 1 <= IZR (2 * k - 1)) by (apply IZR_le; lia).
  replace (IZR (2 * (2 * k - 1))) with (2 * IZR (2 * k - 1)) by (rewrite <- mult_IZR; reflexivity).
  set (N := IZR (2 * k - 1)) in *.
  assert (S0 : 0 < (high - low) / (2 * N)) by (apply Rdiv_lt_0_compat; lra).
  replace (low + INR j * ((high - low) / N) - prior) with ((2 * INR j - N) * ((high - low) / (2 * N))) by (replace prior with ((low + high) / 2) by lra; field; lra).
  rewrite Rabs_mult, (Rabs_pos_eq ((high - low) / (2 * N))) by lra.
  rewrite <- (Rmult_1_l ((high - low) / (2 * N))) at 1. apply Rmult_le_compat_r; [lra|].
  unfold N. rewrite INR_IZR_INZ. replace (2 * IZR (Z.of_nat j)) with (IZR (2 * Z.of_nat j)) by (rewrite mult_IZR; reflexivity).
  rewrite <- minus_IZR, <- abs_IZR. apply IZR_le. lia.
Qed.
Lemma zero_l c l : gr_prior (ck_grid c) = 0 -> ck_get_values c = Ok l ->
  exists ws, check_values false c = (ws, None) /\ In WNoPrior ws.
Proof.
  intros Z E. destruct (check_l c l E) as (n & ws & W & _ & _ & _ & P). exists ws. split; [exact W|]. apply P.
  intros v _ [N _]. contradiction.
Qed.
Lemma rate_l g v ws l : ck_get_values (rate_parameter g v) = Ok l -> check_values false (rate_parameter g v) = (ws, None) ->
  ((exists n, In (WOutside n) ws) <-> exists x, In x l /\ x < 0).
Proof.
  intros E H. destruct (check_l _ l E) as (n & ws' & H' & _ & F & O & _). rewrite H in H'. injection H' as <-.
  assert (A : forall x, allowed (rate_parameter g v) x <-> 0 <= x).
  { intro x. split; [intros [A _]; apply A; reflexivity|]. intro X. split; intros m M; [injection M as <-; exact X|discriminate]. }
  split.
  - intros [m I]. apply O in I. destruct I as [-> N]. clear -F N A.
    induction F as [|x l n P F IH|x l n P F IH]; [contradiction| |].
    + destruct (IH N) as (y & I & Y). exists y. split; [right; exact I|exact Y].
    + exists x. split; [left; reflexivity|]. rewrite A in P. lra.
  - intros (x & I & X). exists n. apply O. split; [reflexivity|]. intros ->. apply fail_none in F.
    rewrite Forall_forall in F. apply F, A in I. lra.
Qed.
Lemma log_positive g l : gr_logscale g = true -> grid_values g = Ok l -> Forall (fun x => 0 < x) l.
Proof.
  intros L. unfold grid_values. rewrite L. unfold log_values. destruct (Rle_dec _ _); [discriminate|]. cbv zeta.
  destruct (rlinspace _ _ _); [|discriminate]. intro E. injection E as <-. apply Forall_forall. intros x I.
  apply in_map_iff in I. destruct I as (y & <- & _). apply exp_pos.
Qed.
Lemma linear_between low high bins l : low <= high -> rlinspace low high bins = Ok l ->
  Forall (fun x => low <= x <= high) l.
Proof.
  intros L. unfold rlinspace. destruct (Z.ltb_spec bins 0); [discriminate|]. intro E. injection E as <-.
  apply Forall_forall. intros x I. apply in_map_iff in I. destruct I as (k & <- & K). apply in_seq in K.
  destruct (Z.le_gt_cases bins 1) as [B|B].
  - assert (k = 0%nat) as -> by lia. change (INR 0) with 0. rewrite Rmult_0_l. lra.
  - assert (B1 : 1 <= IZR (bins - 1)) by (apply IZR_le; lia).
    assert (K1 : 0 <= INR k <= IZR (bins - 1)) by (rewrite INR_IZR_INZ; split; apply IZR_le; lia).
    set (N := IZR (bins - 1)) in *.
    replace (INR k * ((high - low) / N)) with ((high - low) * (INR k / N)) by (field; lra).
    assert (Q : 0 <= INR k / N <= 1).
    { split; [apply Rmult_le_pos; [lra|left; apply Rinv_0_lt_compat; lra]|].
      apply Rmult_le_reg_r with N; [lra|]. unfold Rdiv. rewrite Rmult_assoc, Rinv_l by lra. lra. }
    split; nra.
Qed.
Lemma rate_quiet_l low high prior bins logscale dev l : grid_values (Grid low high prior bins logscale dev) = Ok l ->
  logscale = true \/ (0 <= low <= high /\ (dev = true -> low <= prior <= high /\ low < high /\ (0 <= bins)%Z)) ->
  exists ws, check_values false (rate_parameter (Grid low high prior bins logscale dev) None) = (ws, None) /\
    forall n, ~ In (WOutside n) ws.
Proof.
  intros E H. set (g := Grid low high prior bins logscale dev) in *.
  assert (V : ck_get_values (rate_parameter g None) = Ok l) by exact E.
  destruct (check_l _ _ V) as (n & ws & W & _). exists ws. split; [exact W|]. intros m I.
  destruct (proj1 (rate_l g None ws l V W) (ex_intro _ m I)) as (x & J & X).
  destruct logscale eqn:LS.
  { pose proof (log_positive g l eq_refl E) as P. rewrite Forall_forall in P. apply P in J. lra. }
  destruct H as [H|[H D]]; [discriminate|].
  assert (B : Forall (fun x => low <= x <= high) l).
  { destruct dev.
    - destruct (D eq_refl) as ([D1 D2] & D3 & D4). destruct (dev_l low high prior bins D1 D2 D3 D4) as (l' & E' & _ & _ & F & _).
      unfold g in E. rewrite E in E'. injection E' as <-. exact F.
    - apply (linear_between low high bins l); [lra|exact E]. }
  rewrite Forall_forall in B. apply B in J. lra.
Qed.

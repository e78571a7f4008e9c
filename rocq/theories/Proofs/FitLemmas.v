(** The expected spectrum of a fit does not depend on the history of the fit. *)
From Coq Require Import Lia.
From Verif Require Import Model.Base Model.PyStr Model.NDArray Model.Param Model.Config Model.Spectra
  Model.Smear Model.Shift Model.Heap Model.Fit.
From Verif Require Import Spec.AxisSpec Spec.ArraySpec Spec.SpectraSpec Spec.ShrinkSpec Spec.HeapSpec Spec.FitRunSpec.
From Verif Require Import Proofs.QcLemmas Proofs.NDArrayLemmas Proofs.StrLemmas Proofs.DictLemmas Proofs.ParamLemmas Proofs.RebinLemmas
  Proofs.ShrinkProps Proofs.OpsLemmas Proofs.ExtLemmas Proofs.DeriveExt Proofs.HeapLemmas.

(** ** The values of the parameters *)
Lemma sep_inj (x y r r' : string) : (forall a b, x <> (a ++ "_" ++ b)%string) -> (forall a b, y <> (a ++ "_" ++ b)%string) ->
  (x ++ "_" ++ r)%string = (y ++ "_" ++ r')%string -> x = y /\ r = r'.
Proof.
  revert y. induction x as [|c x IH]; intros [|d y] X Y H; cbn in H.
  - injection H as ->. auto.
  - injection H as E H. subst d. exfalso. apply (Y "" y)%string. reflexivity.
  - injection H as E H. subst c. exfalso. apply (X "" x)%string. reflexivity.
  - injection H as E H. subst d. destruct (IH y) as [-> ->].
    + intros a b K. apply (X (String c a) b). cbn. now rewrite K.
    + intros a b K. apply (Y (String c a) b). cbn. now rewrite K.
    + exact H.
    + auto.
Qed.
Lemma key_inj ft V args args' l : distinct_printing ft V -> Forall V args -> Forall V args' -> length args = length args' ->
  cur_val ft (map Some args) l = cur_val ft (map Some args') l -> forall i p, In i l -> nth_error (ft_pars ft) i = Some p -> nth_error args i = nth_error args' i.
Proof.
  intros [D1 D2] VA VB L. induction l as [|j l IH]; intros H i p I P; [destruct I|].
  cbn [cur_val] in H. destruct (nth_error (ft_pars ft) j) as [q|] eqn:Q.
  2:{ destruct I as [->|I]; [congruence|]. exact (IH H i p I P). }
  rewrite !nth_error_map in H. destruct (nth_error args j) as [x|] eqn:X.
  - destruct (nth_error args' j) as [y|] eqn:Y. 2:{ apply nth_error_None in Y. apply nth_some_lt in X. lia. }
    cbn in H. apply sapp_inj_l in H.
    assert (Vx : V x) by (rewrite Forall_forall in VA; apply VA; now apply nth_error_In in X).
    assert (Vy : V y) by (rewrite Forall_forall in VB; apply VB; now apply nth_error_In in Y).
    apply sep_inj in H; [|intros a b; now apply D2|intros a b; now apply D2].
    destruct H as [H1 H2]. apply D1 in H1; [|assumption..]. destruct I as [<-|I]; [congruence|]. exact (IH H2 i p I P).
  - destruct (nth_error args' j) as [y|] eqn:Y. { apply nth_error_None in X. apply nth_some_lt in Y. lia. }
    cbn in H. destruct I as [<-|I]; [congruence|]. exact (IH H i p I P).
Qed.

(** ** Applying parameters to values *)
Lemma scale_value n s s' : same_spectra s s' -> res_eq same_spectra (apply_value KRate n s) (apply_value KRate n s').
Proof.
  intro H. cbn. destruct (scale_ext n s s' H) as [E1 E2]. destruct (scale n s) as [t [e|]], (scale n s') as [t' [e'|]]; cbn in *; congruence || exact E1.
Qed.
Lemma sees_rate : sees KRate.
Proof. intros v s s' H. exact (scale_value v s s' H). Qed.
Lemma sees_derive f : (forall v s s', same_spectra s s' -> f v s = f v s') -> sees (KDerive f).
Proof.
  intros F v s s' H. cbn. unfold rbind. rewrite (F v s s' H). destruct (f v s') as [d|]; [|reflexivity]. exact (derive_ext d s s' H).
Qed.
Definition all_see (ps : list fitpar) : Prop := forall p, In p ps -> sees (q_kind p).
Lemma res_eq_bind {A B} (R : A -> A -> Prop) (S : B -> B -> Prop) x y k k' : res_eq R x y -> (forall a b, R a b -> res_eq S (k a) (k' b)) -> res_eq S (rbind x k) (rbind y k').
Proof. destruct x, y; cbn; intros H K; try contradiction; [now apply K|exact H]. Qed.
Lemma apply_values_ext ps args l : all_see ps -> forall s s', same_spectra s s' -> res_eq same_spectra (apply_values ps args l s) (apply_values ps args l s').
Proof.
  intro W. induction l as [|i l IH]; intros s s' H; [exact H|]. cbn [apply_values].
  destruct (nth_error ps i) as [p|] eqn:P; [|reflexivity]. destruct (nth_error args i) as [v|]; [|reflexivity].
  eapply res_eq_bind; [|exact IH]. apply W; [now apply nth_error_In in P|exact H].
Qed.
Lemma apply_values_app ps args l m : forall s, apply_values ps args (l ++ m) s = rbind (apply_values ps args l s) (apply_values ps args m).
Proof.
  induction l as [|i l IH]; intro s; [reflexivity|]. cbn [apply_values app].
  destruct (nth_error ps i) as [p|]; [|reflexivity]. destruct (nth_error args i) as [v|]; [|reflexivity].
  destruct (apply_value (q_kind p) v s) as [s'|]; [|reflexivity]. cbn [rbind]. apply IH.
Qed.
Lemma apply_values_args ps args args' l : (forall i p, In i l -> nth_error ps i = Some p -> nth_error args i = nth_error args' i) ->
  forall s, apply_values ps args l s = apply_values ps args' l s.
Proof.
  induction l as [|i l IH]; intros H s; [reflexivity|]. cbn [apply_values]. destruct (nth_error ps i) as [p|] eqn:P; [|reflexivity].
  rewrite (H i p) by (now left || exact P). destruct (nth_error args' i) as [v|]; [|reflexivity]. destruct (apply_value _ v s); [|reflexivity].
  cbn [rbind]. apply IH. intros j q I. apply H. now right.
Qed.
Lemma apply_last_args ps args args' l : (forall i p, In i l -> nth_error ps i = Some p -> nth_error args i = nth_error args' i) ->
  forall s t, apply_last ps args l s t = apply_last ps args' l s t.
Proof.
  induction l as [|i l IH]; intros H s t; [reflexivity|]. cbn [apply_last].
  rewrite (apply_values_args ps args args' [i]). 2:{ intros j q [<-|[]]. apply H. now left. }
  destruct (apply_values ps args' [i] s); [|reflexivity]. cbn [rbind]. apply IH. intros j q I. apply H. now right.
Qed.
Lemma apply_last_ext ps args l : all_see ps -> forall s s' t t', same_spectra s s' -> same_spectra t t' -> res_eq same_spectra (apply_last ps args l s t) (apply_last ps args l s' t').
Proof.
  intro W. induction l as [|i l IH]; intros s s' t t' H K; [exact K|]. cbn [apply_last]. eapply res_eq_bind; [now apply apply_values_ext|].
  intros a b E. now apply IH.
Qed.

(** Shapes *)
Lemma fill_shape w kw s : ashape (s_data (fst (fill w kw s))) = ashape (s_data s).
Proof. unfold fill. destruct (fill_data w kw s) eqn:F; [|reflexivity]. cbn. now apply fill_data_shape in F. Qed.
Lemma fill_list_shape l : forall s t, fill_list l s = Ok t -> ashape (s_data t) = ashape (s_data s).
Proof.
  induction l as [|[w kw] l IH]; intros s t H; cbn in H; [now injection H as <-|].
  pose proof (fill_shape w kw s) as K. destruct (fill w kw s) as [s' [e|]]; [discriminate|]. rewrite (IH _ _ H). exact K.
Qed.
Lemma fill_list_try_shape l : forall s t, fill_list_try l s = Ok t -> ashape (s_data t) = ashape (s_data s).
Proof.
  induction l as [|[w kw] l IH]; intros s t H; cbn in H; [now injection H as <-|].
  pose proof (fill_shape w kw s) as K. destruct (fill w kw s) as [s' [e|]]; [destruct e; try discriminate|]; (rewrite (IH _ _ H); exact K).
Qed.
Lemma smear_bins_shape f bins : forall s t, smear_bins f bins s = Ok t -> ashape (s_data t) = ashape (s_data s).
Proof.
  induction bins as [|b bins IH]; intros s t H; cbn in H; [now injection H as <-|]. unfold rbind in H.
  destruct (f b) as [l|]; [|discriminate]. destruct (fill_list l s) as [s'|] eqn:F; [|discriminate]. rewrite (IH _ _ H). now apply fill_list_shape in F.
Qed.
Lemma random_bins_shape f bins : forall s t, random_bins f bins s = Ok t -> ashape (s_data t) = ashape (s_data s).
Proof.
  induction bins as [|b bins IH]; intros s t H; cbn in H; [now injection H as <-|]. unfold rbind in H.
  destruct (f b) as [l|]; [|discriminate]. destruct (fill_list_try l s) as [s'|] eqn:F; [|discriminate]. rewrite (IH _ _ H). now apply fill_list_try_shape in F.
Qed.
Lemma loop_shape f bins sh : (forall b x y, f b x = Ok y -> ashape x = sh -> ashape y = sh) -> forall x y, loop_bins f bins x = Ok y -> ashape x = sh -> ashape y = sh.
Proof.
  intro F. induction bins as [|b bins IH]; intros x y H S; cbn in H; [now injection H as <-|]. unfold rbind in H.
  destruct (f b x) as [z|] eqn:E; [|discriminate]. exact (IH z y H (F b x z E S)).
Qed.
Lemma by_bin_shape suffix shift dim s t : shift_by_bin suffix shift dim s = Ok t -> ashape (s_data t) = ashape (s_data s).
Proof.
  unfold shift_by_bin, rbind. destruct (get_par _ _) as [p|]; [|discriminate]. destruct (get_width _) as [w|]; [|discriminate]. destruct (is_multiple _ _) as [m|]; [|discriminate].
  destruct (negb m); [discriminate|]. destruct (get_index _ _); [|discriminate]. destruct (loop_bins _ _ _) as [dd|] eqn:L; [|discriminate].
  intro H. injection H as <-. cbn. eapply loop_shape; [|exact L|reflexivity]. clear. intros b x y. unfold shift_one, rbind. destruct (_ || _)%bool; [congruence|].
  destruct (get_bin _ _); [|discriminate]. destruct (qlt _ _); intros H S; injection H as <-; exact S.
Qed.
Lemma resample_shape suffix src interp dim s t : resample suffix src interp dim s = Ok t -> ashape (s_data t) = ashape (s_data s).
Proof.
  unfold resample, rbind. destruct (get_par _ _) as [p|]; [|discriminate]. destruct (get_width _) as [w|]; [|discriminate]. destruct (get_index _ _); [|discriminate].
  destruct (loop_bins _ _ _) as [d|] eqn:L; [|discriminate]. unfold scale. destruct (qdiv _ _); [|discriminate]. intro H. injection H as <-. cbn.
  eapply loop_shape; [|exact L|reflexivity]. clear. intros b x y. unfold resample_one, rbind. destruct (_ || _)%bool; [congruence|].
  set (c := if qlt _ _ then _ else _). destruct (qle _ _); [congruence|]. destruct (get_bin _ _); [|discriminate]. destruct (get_bin_centre _ _); [|discriminate].
  destruct (areas _ _ _ _ _ _) as [[b2 ar1] ar2]. destruct (_ && _)%bool; [congruence|]. destruct (_ && _)%bool; [congruence|].
  destruct (qle _ _); [|destruct (qle _ _)]; intros H S; injection H as <-; exact S.
Qed.
Lemma derive_shape d s t : derive d s = Ok t -> ashape (s_data t) = ashape (s_data s).
Proof.
  destruct d; cbn [derive].
  - unfold weighted_smear, rbind. destruct (negb _); [discriminate|]. destruct (get_par _ _); [|discriminate]. destruct (rmapM _ _); [|discriminate].
    intro H. apply smear_bins_shape in H. exact H.
  - unfold random_smear, rbind. destruct (negb _); [discriminate|]. destruct (rmapM _ _); [|discriminate].
    intro H. apply random_bins_shape in H. exact H.
  - unfold shift_axis, rbind. destruct (get_par _ _); [|discriminate]. destruct (get_width _); [|discriminate]. destruct (is_multiple _ _) as [[]|]; [apply by_bin_shape|apply resample_shape|discriminate].
  - unfold scale_axis. destruct (qeq _ _); [discriminate|]. apply resample_shape.
Qed.
Lemma apply_value_kept k v s t : apply_value k v s = Ok t -> s_cfg t = s_cfg s /\ ashape (s_data t) = ashape (s_data s) /\ (k <> KRate -> s_decays t = s_decays s).
Proof.
  destruct k as [|f]; cbn.
  - unfold scale. destruct (qdiv v (s_decays s)); [|discriminate]. intro H. injection H as <-. repeat split. congruence.
  - unfold rbind. destruct (f v s) as [d|]; [|discriminate]. intro H. pose proof (derive_kept d s t H) as (K1 & K2 & K3 & K4 & K5 & K6).
    pose proof (derive_shape d s t H). repeat split; congruence.
Qed.
Lemma apply_values_kept ps args l : forall s t, apply_values ps args l s = Ok t -> s_cfg t = s_cfg s /\ ashape (s_data t) = ashape (s_data s).
Proof.
  induction l as [|i l IH]; intros s t H; cbn [apply_values] in H; [injection H as <-; auto|].
  destruct (nth_error ps i) as [p|]; [|discriminate]. destruct (nth_error args i) as [v|]; [|discriminate]. unfold rbind in H.
  destruct (apply_value (q_kind p) v s) as [s'|] eqn:E; [|discriminate]. apply apply_value_kept in E as (E1 & E2 & _). apply IH in H as [H1 H2]. split; congruence.
Qed.

(** ** What a part of _funct may change *)
Record frame (X : nat -> Prop) (h h' : heap) : Prop := Frm {
  f_cfgs : forall i c, nth_error (h_cfgs h) i = Some c -> nth_error (h_cfgs h') i = Some c;
  f_bufs : forall i c, nth_error (h_bufs h) i = Some c -> nth_error (h_bufs h') i = Some c;
  f_roid : forall i c, nth_error (h_roid h) i = Some c -> nth_error (h_roid h') i = Some c;
  f_objs : forall r o, ~ X r -> nth_error (h_objs h) r = Some o -> nth_error (h_objs h') r = Some o;
  f_len : length (h_objs h) <= length (h_objs h') }.
Lemma frame_refl X h : frame X h h.
Proof. constructor; auto. Qed.
Lemma frame_weaken (X Y : nat -> Prop) h h' : (forall r, r < length (h_objs h) -> X r -> Y r) -> frame X h h' -> frame Y h h'.
Proof. intros S [A B C D E]. constructor; auto. intros r o N H. apply D; [|exact H]. intro K. apply N. apply S; [|exact K]. now apply nth_some_lt in H. Qed.
Lemma frame_trans X h h1 h2 : frame X h h1 -> frame X h1 h2 -> frame X h h2.
Proof. intros [A B C D E] [A' B' C' D' E']. constructor; auto. lia. Qed.
Lemma abs_frame X h h' r s : frame X h h' -> ~ X r -> abs h r = Some s -> abs h' r = Some s.
Proof.
  intros [A B C D E] N H. destruct (abs_split h r s H) as (o & c & b & d & O' & C' & B' & D' & ->). apply abs_join; auto.
Qed.
Lemma abs_lt h r s : abs h r = Some s -> r < length (h_objs h).
Proof. intro H. destruct (abs_split h r s H) as (o & c & b & d & O & _). now apply nth_some_lt in O. Qed.
Lemma frame_effect r h x y : good_call false false false r h x y -> (exists s, abs h r = Some s) -> frame (eq r) h (fst x).
Proof.
  intros (E & W & _) (s & A). destruct (abs_split h r s A) as (o & c & b & d & O' & _). destruct (E o O') as [L O S C D B F R G].
  constructor.
  - intros i z H. rewrite D by auto. exact H.
  - intros i z H. rewrite F; auto. now apply nth_some_lt in H.
  - intros i z H. rewrite G by auto. exact H.
  - intros r' o' N H. rewrite O by congruence. exact H.
  - lia.
Qed.
Lemma frame_same_cfg r h x y s : good_call true false false r h x y -> abs h r = Some s -> s_cfg (fst y) = s_cfg s -> frame (eq r) h (fst x).
Proof.
  intros (E & W & (s' & A' & M') & _) A K. destruct (abs_split h r s A) as (o & c & b & d & O' & C' & B' & D' & ->). destruct (E o O') as [L O S C D B F R G].
  constructor.
  - intros i z H. destruct (Nat.eq_dec i (o_cfg o)) as [->|N].
    + destruct (abs_split _ r s' A') as (o1 & c1 & b1 & d1 & O1 & C1 & B1 & D1 & ->). destruct S as (o2 & S1 & S2 & _).
      assert (o2 = o1) as -> by congruence. rewrite S2 in C1. destruct M' as [(_ & _ & M3 & _) _]. cbn in M3, K. congruence.
    + rewrite D by auto. exact H.
  - intros i z H. rewrite F; auto. now apply nth_some_lt in H.
  - intros i z H. rewrite G by auto. exact H.
  - intros r' o' N H. rewrite O by congruence. exact H.
  - lia.
Qed.
Lemma frame_grows h h' o : grows h h' o -> frame (fun _ => False) h h'.
Proof.
  intros (O & C & B & R). constructor; try (intros i c; now apply grows_nth).
  - intros r o' _ H. rewrite O, nth_app_old; [exact H|now apply nth_some_lt in H].
  - rewrite O, app_length. lia.
Qed.

(** ** Parameters applied to objects *)
Definition first_rate (ps : list fitpar) (l : list nat) : Prop :=
  match l with [] => False | i :: _ => exists p, nth_error ps i = Some p /\ q_kind p = KRate end.
(** An object that stands for the spectrum [B]: rates have left it scaled, but then the next
    use scales it again. *)
Definition orbit (ps : list fitpar) (l : list nat) (B cur : spectra) : Prop :=
  same_spectra cur B \/ (first_rate ps l /\ exists n s1, n <> 0%Qc /\ scale n B = (s1, None) /\ same_spectra cur s1).
Definition ran (X : nat -> Prop) (r : nat) (st : fstate) (x : fstate * res nat) (y : res spectra) : Prop :=
  fs_cache (fst x) = fs_cache st /\ fs_cur (fst x) = fs_cur st /\ wf_heap (fs_heap (fst x)) /\
  frame X (fs_heap st) (fs_heap (fst x)) /\
  match snd x, y with
  | Ok r', Ok s => (r' = r \/ length (h_objs (fs_heap st)) <= r') /\ exists s', abs (fs_heap (fst x)) r' = Some s' /\ same_spectra s' s
  | Err e, Err f => e = f
  | _, _ => False
  end.

Definition nonzero (ps : list fitpar) (args : list Qc) : Prop :=
  forall i p v, nth_error ps i = Some p -> nth_error args i = Some v -> q_kind p = KRate -> v <> 0%Qc.

Lemma apply_rate ft i p v r st cur s : wf_heap (fs_heap st) -> abs (fs_heap st) r = Some cur ->
  nth_error (ft_pars ft) i = Some p -> nth_error (fs_cur st) i = Some (Some v) -> q_kind p = KRate ->
  res_eq same_spectra (apply_value KRate v cur) (apply_value KRate v s) ->
  ran (eq r) r st (apply_to ft i r st) (apply_value KRate v s) /\
  (forall r', snd (apply_to ft i r st) = Ok r' -> r' = r) /\
  match apply_value KRate v s with
  | Ok s1 => exists c, abs (fs_heap (fst (apply_to ft i r st))) r = Some c /\ same_spectra c s1
  | Err _ => exists c, abs (fs_heap (fst (apply_to ft i r st))) r = Some c /\ same_spectra c cur
  end.
Proof.
  intros W A P V K E. unfold apply_to. rewrite P, V, K. unfold mbind, on_heap, mret.
  pose proof (scale_call v r (fs_heap st) cur W A) as G. pose proof (frame_effect r _ _ _ G (ex_intro _ cur A)) as F.
  destruct G as (_ & W1 & (c & A1 & S1) & O1).
  destruct (h_scale v r (fs_heap st)) as [h1 e1]. cbn [fst snd fs_heap fs_cache fs_cur fs_with_heap] in *. subst e1.
  cbn [apply_value] in *. destruct (scale v cur) as [t e] eqn:SC. cbn [fst snd] in *.
  destruct e as [e|].
  - destruct (scale v s) as [t' [e'|]]; cbn in E; [subst e'|contradiction].
    split; [|split; [discriminate|]].
    + refine (conj eq_refl (conj eq_refl (conj W1 (conj F _)))). reflexivity.
    + exists c. split; [exact A1|]. assert (t = cur) as -> by (revert SC; unfold scale; destruct (qdiv v (s_decays cur)); congruence). exact S1.
  - destruct (scale v s) as [t' [e'|]]; cbn in E; [contradiction|].
    assert (S2 : same_spectra c t') by (eapply same_trans; [exact S1|exact E]).
    split; [|split; [intros r' H; cbn in H; congruence|]].
    + refine (conj eq_refl (conj eq_refl (conj W1 (conj F _)))). cbn. split; [now left|]. exists c. auto.
    + exists c. auto.
Qed.
Lemma apply_derive ft i p f v r st cur s : wf_heap (fs_heap st) -> abs (fs_heap st) r = Some cur ->
  nth_error (ft_pars ft) i = Some p -> nth_error (fs_cur st) i = Some (Some v) -> q_kind p = KDerive f -> sees (KDerive f) ->
  same_spectra cur s ->
  ran (fun _ => False) r st (apply_to ft i r st) (apply_value (KDerive f) v s) /\
  (forall r', snd (apply_to ft i r st) = Ok r' -> r' = length (h_objs (fs_heap st))).
Proof.
  intros W A P V K SE S. pose proof (SE v cur s S) as E. unfold apply_to. rewrite P, V, K. unfold mbind, look, mlift, on_heap, mret.
  rewrite A. unfold apply_value, rbind in E |- *. destruct (f v cur) as [d|e] eqn:FD.
  2:{ destruct (match f v s with Ok d => derive d s | Err e => Err e end) as [|e']; cbn in E; [contradiction|subst e'].
      split; [|cbn; discriminate]. refine (conj eq_refl (conj eq_refl (conj W (conj (frame_refl _ _) _)))). reflexivity. }
  pose proof (derive_call d r (fs_heap st) cur W A) as G. destruct (derive d cur) as [t|e].
  - destruct G as (G1 & G2 & o & s' & G3 & G4 & G5). destruct (h_derive d r (fs_heap st)) as [h1 e1]. cbn [fst snd] in *. subst e1. cbn [fst snd fs_with_heap fs_heap].
    destruct (match f v s with Ok d => derive d s | Err e => Err e end) as [t'|e']; cbn in E; [|contradiction].
    split; [|intros r' H; congruence]. split; [reflexivity|]. split; [reflexivity|]. split; [exact G2|]. split; [now apply frame_grows in G3|].
    cbn. split; [right; lia|]. exists s'. split; [exact G4|]. eapply same_trans; [exact G5|exact E].
  - cbn in G. rewrite !G. cbn [fst snd fs_with_heap fs_heap]. destruct (match f v s with Ok d => derive d s | Err e => Err e end) as [|e']; cbn in E; [contradiction|subst e'].
    split; [|cbn; discriminate]. refine (conj eq_refl (conj eq_refl (conj W (conj (frame_refl _ _) _)))). reflexivity.
Qed.
Lemma rate_scaled n B s1 cur v : n <> 0%Qc -> scale n B = (s1, None) -> same_spectra cur s1 ->
  res_eq same_spectra (apply_value KRate v cur) (apply_value KRate v B).
Proof.
  intros N SC S. destruct (Qc_eq_dec (s_decays B) 0) as [D|D].
  - rewrite scale_zero_l in SC by exact D. congruence.
  - destruct (scale_compose_l B n v D N) as (a & b & c & H1 & H2 & H3 & H4). assert (a = s1) as -> by congruence.
    pose proof (scale_value v cur s1 S) as E. cbn in E |- *. rewrite H2 in E. rewrite H3.
    destruct (scale v cur) as [t [e|]]; cbn in *; [exact E|]. eapply same_trans; [exact E|exact H4].
Qed.
Lemma orbit_scale ps i l B s1 v cur p : nth_error ps i = Some p -> q_kind p = KRate -> v <> 0%Qc -> apply_value KRate v B = Ok s1 ->
  orbit ps l s1 cur -> orbit ps (i :: l) B cur.
Proof.
  intros P K N E O. right. split; [now exists p|]. cbn in E. destruct (scale v B) as [t [e|]] eqn:SC; [discriminate|]. injection E as ->.
  destruct O as [O|(_ & n & s2 & N2 & S2 & O)]; [now exists v, s1|].
  destruct (Qc_eq_dec (s_decays B) 0) as [D|D]; [rewrite scale_zero_l in SC by exact D; congruence|].
  destruct (scale_compose_l B v n D N) as (a & b & c & H1 & H2 & H3 & H4). assert (a = s1) as -> by congruence. assert (b = s2) as -> by congruence.
  exists n, c. split; [exact N2|]. split; [exact H3|]. eapply same_trans; eassumption.
Qed.
Lemma ran_trans (X Y : nat -> Prop) r r1 st st1 x1 x2 y1 y2 :
  ran X r st x1 y1 -> x1 = (st1, Ok r1) -> ran Y r1 st1 x2 y2 -> (forall q, q < length (h_objs (fs_heap st)) -> Y q -> X q) ->
  ran X r st x2 y2.
Proof.
  intros (A1 & A2 & A3 & A4 & A5) -> (B1 & B2 & B3 & B4 & B5) S. cbn [fst snd] in *.
  assert (F : frame X (fs_heap st) (fs_heap (fst x2))).
  { pose proof (f_len _ _ _ A4). destruct A4 as [a b c d e], B4 as [a' b' c' d' e']. constructor; auto; [|lia].
    intros q o N H'. apply d'; [|now apply d]. intro K. apply N, S; [now apply nth_some_lt in H'|exact K]. }
  refine (conj _ (conj _ (conj B3 (conj F _)))); [congruence..|].
  destruct (snd x2) as [r2|e2], y2 as [s2|e3]; try contradiction; [|exact B5]. destruct B5 as (B5 & B6). split; [|exact B6].
  destruct y1 as [s1|]; [|contradiction]. destruct A5 as (A5 & _). pose proof (f_len _ _ _ A4). destruct B5 as [->|B5]; [exact A5|right; lia].
Qed.
Lemma apply_all_ran ft args l : all_see (ft_pars ft) -> nonzero (ft_pars ft) args -> forall r st cur s,
  wf_heap (fs_heap st) -> fs_cur st = map Some args -> abs (fs_heap st) r = Some cur -> orbit (ft_pars ft) l s cur ->
  ran (fun x => r = x /\ first_rate (ft_pars ft) l) r st (apply_all ft l r st) (apply_values (ft_pars ft) args l s) /\
  exists c, abs (fs_heap (fst (apply_all ft l r st))) r = Some c /\ orbit (ft_pars ft) l s c.
Proof.
  intros SE NZ. induction l as [|i l IH]; intros r st cur s W C A O.
  - cbn [apply_all apply_values mret]. split; [|exists cur; auto].
    refine (conj eq_refl (conj eq_refl (conj W (conj (frame_refl _ _) _)))). cbn. split; [now left|]. exists cur. split; [exact A|].
    destruct O as [O|(F & _)]; [exact O|destruct F].
  - cbn [apply_all apply_values]. unfold mbind.
    destruct (nth_error (ft_pars ft) i) as [p|] eqn:P.
    2:{ unfold apply_to. rewrite P. split; [|exists cur; auto]. refine (conj eq_refl (conj eq_refl (conj W (conj (frame_refl _ _) _)))). reflexivity. }
    assert (V : nth_error (fs_cur st) i = option_map Some (nth_error args i)) by (rewrite C; apply nth_error_map).
    destruct (nth_error args i) as [v|] eqn:Va; cbn in V.
    2:{ unfold apply_to. rewrite P, V. split; [|exists cur; auto]. refine (conj eq_refl (conj eq_refl (conj W (conj (frame_refl _ _) _)))). reflexivity. }
    destruct (q_kind p) as [|f] eqn:K.
    + assert (FR : first_rate (ft_pars ft) (i :: l)) by now exists p. assert (Nv : v <> 0%Qc) by (eapply NZ; eassumption).
      assert (E : res_eq same_spectra (apply_value KRate v cur) (apply_value KRate v s)).
      { destruct O as [O|(_ & n & s1 & N & SC & O)]; [now apply scale_value|]. now apply (rate_scaled n s s1). }
      destruct (apply_rate ft i p v r st cur s W A P V K E) as (R & R1 & R2).
      destruct (apply_to ft i r st) as [st1 [r1|e1]] eqn:AT.
      * specialize (R1 r1 eq_refl). subst r1. destruct (apply_value KRate v s) as [s1|] eqn:Ev; [|destruct R as (_ & _ & _ & _ & [])].
        cbn [rbind]. destruct R2 as (c & Ac & Sc). cbn [fst] in Ac. pose proof R as (Q1 & Q2 & Q3 & Q4 & _). cbn [fst] in Q1, Q2, Q3, Q4.
        destruct (IH r st1 c s1 Q3 (eq_trans Q2 C) Ac (or_introl Sc)) as (R3 & c' & A' & O').
        split.
        -- eapply (ran_trans (fun x => r = x /\ first_rate (ft_pars ft) (i :: l)) _ r r st st1 (st1, Ok r) _ (Ok s1)); [|reflexivity|exact R3|].
           ++ destruct R as (X1 & X2 & X3 & X4 & X5). refine (conj X1 (conj X2 (conj X3 (conj _ X5)))). eapply frame_weaken; [|exact X4]. cbn. auto.
           ++ cbn. intros q _ [-> _]. auto.
        -- exists c'. split; [exact A'|]. now apply (orbit_scale _ i l s s1 v c' p).
      * destruct (apply_value KRate v s) as [s1|e2] eqn:Ev; [destruct R as (_ & _ & _ & _ & [])|]. cbn [rbind].
        destruct R2 as (c & Ac & Sc). split.
        -- destruct R as (X1 & X2 & X3 & X4 & X5). refine (conj X1 (conj X2 (conj X3 (conj _ X5)))). eapply frame_weaken; [|exact X4]. cbn. auto.
        -- exists c. split; [exact Ac|]. destruct O as [O|(F & n & s1 & N & SC & O)]; [left; now apply (same_trans _ cur)|].
           right. split; [exact F|]. exists n, s1. split; [exact N|]. split; [exact SC|]. now apply (same_trans _ cur).
    + assert (NR : ~ first_rate (ft_pars ft) (i :: l)) by (intros (p' & P' & K'); congruence).
      destruct O as [O|(F & _)]; [|contradiction].
      assert (Sf : sees (KDerive f)). { rewrite <- K. apply SE. now apply nth_error_In in P. }
      destruct (apply_derive ft i p f v r st cur s W A P V K Sf O) as (R & R1).
      destruct (apply_to ft i r st) as [st1 [r1|e1]] eqn:AT.
      * specialize (R1 r1 eq_refl). destruct (apply_value (KDerive f) v s) as [s1|] eqn:Ev; [|destruct R as (_ & _ & _ & _ & [])].
        cbn [rbind]. pose proof R as (Q1 & Q2 & Q3 & Q4 & Q5). cbn [fst snd] in Q1, Q2, Q3, Q4, Q5. destruct Q5 as (_ & c & Ac & Sc).
        destruct (IH r1 st1 c s1 Q3 (eq_trans Q2 C) Ac (or_introl Sc)) as (R3 & c' & A' & O').
        assert (R4 : ran (fun x => False) r st (apply_all ft l r1 st1) (apply_values (ft_pars ft) args l s1)).
        { eapply ran_trans; [exact R|reflexivity|exact R3|]. cbn. intros q L [E _]. lia. }
        split.
        -- destruct R4 as (X1 & X2 & X3 & X4 & X5). refine (conj X1 (conj X2 (conj X3 (conj _ X5)))). eapply frame_weaken; [|exact X4]. cbn. tauto.
        -- exists cur. split; [|now left]. destruct R4 as (_ & _ & _ & X4 & _). apply (abs_frame (fun _ => False) (fs_heap st)); auto.
      * destruct (apply_value (KDerive f) v s) as [s1|e2] eqn:Ev; [destruct R as (_ & _ & _ & _ & [])|]. cbn [rbind]. split.
        -- destruct R as (X1 & X2 & X3 & X4 & X5). refine (conj X1 (conj X2 (conj X3 (conj _ X5)))). eapply frame_weaken; [|exact X4]. cbn. tauto.
        -- exists cur. split; [|now left]. destruct R as (_ & _ & _ & X4 & _). apply (abs_frame (fun _ => False) (fs_heap st)); auto.
Qed.
(** Only smearing, shifting, stretching: the original object is not touched. *)
Definition derives (ps : list fitpar) (l : list nat) : Prop := forall i p, In i l -> nth_error ps i = Some p -> exists f, q_kind p = KDerive f.
Lemma apply_each_ran ft args l : all_see (ft_pars ft) -> derives (ft_pars ft) l -> forall r st cur s last sl,
  wf_heap (fs_heap st) -> fs_cur st = map Some args -> abs (fs_heap st) r = Some cur -> same_spectra cur s ->
  last < length (h_objs (fs_heap st)) -> abs (fs_heap st) last = Some sl ->
  forall tl, same_spectra sl tl ->
  fs_cache (fst (apply_each ft l r last st)) = fs_cache st /\ fs_cur (fst (apply_each ft l r last st)) = fs_cur st /\ wf_heap (fs_heap (fst (apply_each ft l r last st))) /\
  frame (fun _ => False) (fs_heap st) (fs_heap (fst (apply_each ft l r last st))) /\
  match snd (apply_each ft l r last st), apply_last (ft_pars ft) args l s tl with
  | Ok r', Ok t => (l = [] /\ r' = last \/ length (h_objs (fs_heap st)) <= r') /\ exists t', abs (fs_heap (fst (apply_each ft l r last st))) r' = Some t' /\ same_spectra t' t
  | Err e, Err f => e = f
  | _, _ => False
  end.
Proof.
  intros SE DR. induction l as [|i l IH]; intros r st cur s last sl W C A S L Al tl Sl.
  - cbn. refine (conj eq_refl (conj eq_refl (conj W (conj (frame_refl _ _) _)))). split; [left; auto|]. exists sl. auto.
  - cbn [apply_each apply_last apply_values]. unfold mbind.
    destruct (nth_error (ft_pars ft) i) as [p|] eqn:P.
    2:{ unfold apply_to. rewrite P. refine (conj eq_refl (conj eq_refl (conj W (conj (frame_refl _ _) _)))). reflexivity. }
    assert (V : nth_error (fs_cur st) i = option_map Some (nth_error args i)) by (rewrite C; apply nth_error_map).
    destruct (nth_error args i) as [v|] eqn:Va; cbn in V.
    2:{ unfold apply_to. rewrite P, V. refine (conj eq_refl (conj eq_refl (conj W (conj (frame_refl _ _) _)))). reflexivity. }
    destruct (DR i p (or_introl eq_refl) P) as (f & K).
    assert (Sf : sees (KDerive f)). { rewrite <- K. apply SE. now apply nth_error_In in P. }
    destruct (apply_derive ft i p f v r st cur s W A P V K Sf S) as (R & R1). rewrite K.
    destruct (apply_to ft i r st) as [st1 [r1|e1]] eqn:AT.
    + specialize (R1 r1 eq_refl). destruct (apply_value (KDerive f) v s) as [s1|] eqn:Ev; [|destruct R as (_ & _ & _ & _ & [])].
      cbn [rbind]. pose proof R as (Q1 & Q2 & Q3 & Q4 & Q5). cbn [fst snd] in Q1, Q2, Q3, Q4, Q5. destruct Q5 as (_ & c & Ac & Sc).
      assert (DR' : derives (ft_pars ft) l) by (intros j q I; apply DR; now right).
      destruct (IH DR' r st1 cur s r1 c Q3 (eq_trans Q2 C) (abs_frame _ _ _ _ _ Q4 (fun x => x) A) S (abs_lt _ _ _ Ac) Ac s1 Sc) as (Z1 & Z2 & Z3 & Z4 & Z5).
      refine (conj (eq_trans Z1 Q1) (conj (eq_trans Z2 Q2) (conj Z3 (conj (frame_trans _ _ _ _ Q4 Z4) _)))).
      pose proof (f_len _ _ _ Q4). destruct (snd (apply_each ft l r r1 st1)) as [r2|], (apply_last (ft_pars ft) args l s s1) as [t|]; try contradiction; [|exact Z5].
      destruct Z5 as ([(_ & ->)|Z5] & Z6); (split; [right; lia|exact Z6]).
    + destruct (apply_value (KDerive f) v s) as [s1|e2] eqn:Ev; [destruct R as (_ & _ & _ & _ & [])|]. cbn [rbind].
      destruct R as (X1 & X2 & X3 & X4 & X5). cbn [fst snd] in *. refine (conj X1 (conj X2 (conj X3 (conj X4 X5)))).
Qed.

(** Rebinning, shrinking, smearing, shifting and projecting the sum of two spectra. *)
From Coq Require Import Lia.
From Verif Require Import Model.Base Model.PyStr Model.NDArray Model.Param Model.Config Model.Spectra
  Model.Smear Model.Shift.
From Verif Require Import Spec.ArraySpec Spec.SpectraSpec Spec.FitRunSpec Spec.FitLimitSpec.
From Verif Require Import Spec.AddUpSpec.
From Verif Require Import Proofs.DictLemmas Proofs.QcLemmas Proofs.NDArrayLemmas Proofs.RebinLemmas Proofs.ExtLemmas Proofs.SmearLemmas Proofs.ShiftLemmas Proofs.ParamLemmas Proofs.OpsLemmas Proofs.DeriveExt Proofs.HomogLemmas.

(** The array [c] is the sum of [a] and [b]. *)
Definition arr3 (a b c : ndarray) : Prop :=
  ashape a = ashape c /\ ashape b = ashape c /\ forall i, valid_idx (ashape c) i -> (aget c i = aget a i + aget b i)%Qc.
Definition sum3 (s o t : spectra) : Prop :=
  s_name t = s_name s /\ s_bg t = s_bg s /\ s_cfg t = s_cfg s /\ s_cfg o = s_cfg s /\ s_raw t = (s_raw s + s_raw o)%Z /\
  s_bipo t = s_bipo s /\ s_rois t = s_rois s /\ s_decays t = (s_decays s + s_decays o)%Qc /\ arr3 (s_data s) (s_data o) (s_data t).

Lemma dims_self ds ds' : (forall d, In d ds -> In d ds') -> check_dims ds ds' = Ok tt.
Proof.
  induction ds as [|d ds IH]; intro H; [reflexivity|]. cbn. destruct (str_in d ds') eqn:E; [apply IH; intros; apply H; now right|].
  exfalso. assert (X : str_in d ds' = true) by (apply str_in_iff; apply H; now left). congruence.
Qed.
Lemma types_self c : forall vs, (forall v, In v vs -> In v (get_pars c)) -> diff_types c c vs = Ok [].
Proof.
  induction vs as [|v vs IH]; intro H; [reflexivity|]. cbn. assert (X : str_in v (get_pars c) = true) by (apply str_in_iff; apply H; now left).
  rewrite X. apply IH. intros; apply H; now right.
Qed.
Lemma get_par_in (c : sconfig) v : In v (get_pars c) -> exists p, get_par c v = Ok p.
Proof.
  unfold get_pars, get_par, dlookup. induction c as [|[k p] c IH]; intro H; [contradiction|]. cbn [dget]. destruct (String.eqb_spec v k) as [|N]; [eauto|].
  destruct H as [H|H]; [cbn in H; congruence|]. apply IH, H.
Qed.
Lemma pars_self c : forall vs, (forall v, In v vs -> In v (get_pars c)) -> check_pars c c [] vs = Ok tt.
Proof.
  induction vs as [|v vs IH]; intro H; [reflexivity|]. cbn [check_pars]. unfold check_par. cbn [dget].
  destruct (get_par_in c v) as [p E]; [apply H; now left|]. rewrite E. cbn [rbind]. rewrite !isclose_refl, Z.eqb_refl. cbn [negb rbind].
  apply IH. intros; apply H; now right.
Qed.
Lemma check_self s o : s_cfg o = s_cfg s -> ashape (s_data s) = ashape (s_data o) -> add_check s o = Ok tt.
Proof.
  intros C S. unfold add_check. rewrite C, S. unfold shape_eqb. rewrite idx_eqb_refl. cbn [negb].
  rewrite dims_self by auto. cbn [rbind]. rewrite types_self by auto. cbn [rbind]. apply pars_self. auto.
Qed.
Lemma add_sum3 s o t : s_cfg o = s_cfg s -> s_add o s = (t, None) -> sum3 s o t.
Proof.
  unfold s_add. intros C H. destruct (add_check s o) as [[]|] eqn:E; [|discriminate]. apply add_shape_ok in E. injection H as <-.
  assert (A : arr3 (s_data s) (s_data o) (aplus (s_data s) (s_data o))) by (split; [reflexivity|split; [symmetry; exact E|reflexivity]]).
  exact (conj eq_refl (conj eq_refl (conj eq_refl (conj C (conj eq_refl (conj eq_refl (conj eq_refl (conj eq_refl A)))))))).
Qed.
Lemma sum3_add s o t : sum3 s o t -> exists u, s_add o s = (u, None) /\ same_spectra t u.
Proof.
  intros (Hn & Hb & Hc & Ho & Hr & Hp & Hi & Hd & S1 & S2 & G). unfold s_add. rewrite check_self by congruence.
  eexists. split; [reflexivity|]. apply same_spectra_intro; cbn; try assumption. split; [cbn; congruence|]. cbn. exact G.
Qed.
Lemma data3 s o t a b c : sum3 s o t -> arr3 a b c -> sum3 (with_data s a) (with_data o b) (with_data t c).
Proof. intros (Hn & Hb & Hc & Ho & Hr & Hp & Hi & Hd & _) A. exact (conj Hn (conj Hb (conj Hc (conj Ho (conj Hr (conj Hp (conj Hi (conj Hd A)))))))). Qed.
Lemma data_left s o t a c : sum3 s o t -> arr3 a (s_data o) c -> sum3 (with_data s a) o (with_data t c).
Proof. intros (Hn & Hb & Hc & Ho & Hr & Hp & Hi & Hd & _) A. exact (conj Hn (conj Hb (conj Hc (conj Ho (conj Hr (conj Hp (conj Hi (conj Hd A)))))))). Qed.
Lemma data_right s o t b c : sum3 s o t -> arr3 (s_data s) b c -> sum3 s (with_data o b) (with_data t c).
Proof. intros (Hn & Hb & Hc & Ho & Hr & Hp & Hi & Hd & _) A. exact (conj Hn (conj Hb (conj Hc (conj Ho (conj Hr (conj Hp (conj Hi (conj Hd A)))))))). Qed.
Lemma data_both s o t a b : sum3 s o t -> arr3 a b (s_data t) -> sum3 (with_data s a) (with_data o b) t.
Proof. intros (Hn & Hb & Hc & Ho & Hr & Hp & Hi & Hd & _) A. exact (conj Hn (conj Hb (conj Hc (conj Ho (conj Hr (conj Hp (conj Hi (conj Hd A)))))))). Qed.
Lemma adds_up_of (ok : spectra -> Prop) f :
  (forall s o t s1 o1, ok s -> ok o -> sum3 s o t -> f s = Ok s1 -> f o = Ok o1 -> exists t1, f t = Ok t1 /\ sum3 s1 o1 t1) -> adds_up ok f.
Proof.
  intros H s o t s1 o1 K1 K2 C A E1 E2. destruct (H s o t s1 o1 K1 K2 (add_sum3 s o t C A) E1 E2) as (t1 & T & S).
  destruct (sum3_add _ _ _ S) as (u & U & M). eauto.
Qed.

(** ** Arrays *)
Definition arr_op (f : ndarray -> res ndarray) : Prop :=
  forall a b c, arr3 a b c ->
    match f c with
    | Ok c1 => exists a1 b1, f a = Ok a1 /\ f b = Ok b1 /\ arr3 a1 b1 c1
    | Err e => f a = Err e /\ f b = Err e
    end.
Lemma bind_op f g : arr_op f -> arr_op g -> arr_op (fun a => do x <- f a; g x).
Proof.
  intros F G a b c H. pose proof (F a b c H) as E. destruct (f c) as [c1|]; cbn.
  - destruct E as (a1 & b1 & -> & -> & E). cbn. exact (G _ _ _ E).
  - destruct E as [-> ->]. now split.
Qed.
Lemma axis_op ax : arr_op (asum_axis ax).
Proof.
  intros a b c (S1 & S2 & G). unfold asum_axis, andim. rewrite S1, S2. destruct (norm_axis ax (length (ashape c))) as [k|e] eqn:N; cbn; [|now split].
  apply norm_axis_lt in N. eexists _, _. split; [reflexivity|]. split; [reflexivity|]. split; [cbn; congruence|]. split; [cbn; congruence|]. cbn. intros i V.
  rewrite S1, S2.  rewrite <- qsumn_add. apply qsumn_ext. intros j J. apply G. now apply valid_insert.
Qed.
Lemma reshape_op new : arr_op (areshape new).
Proof.
  intros a b c (S1 & S2 & G). unfold areshape. rewrite S1, S2. destruct (Nat.eqb_spec (asize new) (asize (ashape c))) as [E|]; [|now split].
  eexists _, _. split; [reflexivity|]. split; [reflexivity|]. split; [reflexivity|]. split; [reflexivity|]. cbn. intros i V.
  apply G. apply unravel_valid. rewrite <- E. now apply ravel_lt.
Qed.
Lemma slice_op sls : arr_op (aslice sls).
Proof.
  intros a b c (S1 & S2 & G). unfold aslice, andim. rewrite S1, S2. destruct (Nat.eqb_spec (length sls) (length (ashape c))) as [E|]; [|now split].
  eexists _, _. split; [reflexivity|]. split; [reflexivity|]. split; [reflexivity|]. split; [reflexivity|]. cbn. intros i V.
  apply G. now apply slice_valid.
Qed.
Lemma id_op : arr_op (fun a => Ok a).
Proof. intros a b c H. eauto. Qed.
Lemma sums_op is : arr_op (rebin_sums is).
Proof.
  induction is as [|i is IH]; [apply id_op|]. exact (bind_op _ _ (axis_op _) IH).
Qed.
Lemma rebin_op bins : arr_op (rebin_data bins).
Proof.
  intros a b c H. unfold rebin_data. pose proof H as (-> & -> & _). destruct (rebin_shape bins (ashape c)) as [sh|]; cbn; [|now split].
  exact (bind_op _ _ (reshape_op sh) (sums_op _) a b c H).
Qed.
Lemma project_op axis is : arr_op (project_loop axis is).
Proof. induction is as [|i is IH]; [apply id_op|]. exact (bind_op _ _ (axis_op _) IH). Qed.
Lemma nd_op axes is : arr_op (nd_project_loop axes is).
Proof.
  induction is as [|i is IH]; [apply id_op|]. intros a b c H. cbn [nd_project_loop]. destruct (existsb _ _); [now apply IH|].
  exact (bind_op _ _ (axis_op _) IH a b c H).
Qed.

(** ** Spectra *)
Lemma with3 s o t c1 a1 b1 d1 : sum3 s o t -> arr3 a1 b1 d1 ->
  sum3 (with_data (with_cfg s c1) a1) (with_data (with_cfg o c1) b1) (with_data (with_cfg t c1) d1).
Proof. intros (Hn & Hb & Hc & Ho & Hr & Hp & Hi & Hd & _) A. unfold sum3. cbn. repeat (split; [first [assumption|reflexivity]|]). exact A. Qed.
Definition spectra_op (f : spectra -> res spectra) : Prop :=
  forall s o t, sum3 s o t ->
    match f t with
    | Ok t1 => exists s1 o1, f s = Ok s1 /\ f o = Ok o1 /\ sum3 s1 o1 t1
    | Err e => f s = Err e /\ f o = Err e
    end.
Lemma rebin_s b : spectra_op (fun s => done (rebin b s)).
Proof.
  intros s o t H. pose proof H as (_ & _ & Hc & Ho & _ & _ & _ & _ & A). unfold rebin. rewrite Hc, Ho. destruct (negb _); [now split|].
  destruct (rebin_pars (s_cfg s) b) as [c1 [e|]]; [now split|]. pose proof (rebin_op b _ _ _ A) as E.
  destruct (rebin_data b (s_data t)) as [d|e].
  - destruct E as (a1 & b1 & -> & -> & E). cbn. eexists _, _. split; [reflexivity|]. split; [reflexivity|]. now apply with3.
  - destruct E as [-> ->]. now split.
Qed.
Lemma shrink_s kw : spectra_op (fun s => done (shrink kw s)).
Proof.
  intros s o t H. pose proof H as (_ & _ & Hc & Ho & _ & _ & _ & _ & A). unfold shrink. rewrite Hc, Ho. destruct (shrink_check (s_cfg s) kw); [|now split].
  destruct (shrink_pars kw (s_cfg s)) as [c1 [[|sl sls]|e]]; [now split| |now split]. pose proof (slice_op (sl :: sls) _ _ _ A) as E.
  destruct (aslice (sl :: sls) (s_data t)) as [d|e].
  - destruct E as (a1 & b1 & -> & -> & E). cbn. eexists _, _. split; [reflexivity|]. split; [reflexivity|]. now apply with3.
  - destruct E as [-> ->]. now split.
Qed.
Lemma op_adds f : spectra_op f -> adds_up any_spectrum f.
Proof.
  intro F. apply adds_up_of. intros s o t s1 o1 _ _ H E1 E2. pose proof (F s o t H) as E. destruct (f t) as [t1|e].
  - destruct E as (s2 & o2 & X & Y & E). exists t1. split; [reflexivity|]. congruence.
  - destruct E. congruence.
Qed.
Lemma op_refused f : spectra_op f -> forall s o t e, s_cfg o = s_cfg s -> s_add o s = (t, None) ->
  (f t = Err e <-> f s = Err e) /\ (f t = Err e <-> f o = Err e).
Proof.
  intros F s o t e C A. pose proof (F s o t (add_sum3 s o t C A)) as E. destruct (f t) as [t1|e1].
  - destruct E as (s2 & o2 & -> & -> & _). split; split; discriminate.
  - destruct E as [-> ->]. split; reflexivity.
Qed.
Lemma nd_s dims s o t a b : s_cfg o = s_cfg s -> s_add o s = (t, None) -> nd_project dims s = Ok a -> nd_project dims o = Ok b ->
  exists c, nd_project dims t = Ok c /\ arr3 a b c.
Proof.
  intros C A. apply add_sum3 in A; [|exact C]. pose proof A as (_ & _ & Hc & Ho & _ & _ & _ & _ & D). unfold nd_project. rewrite Hc, Ho.
  destruct (rmapM (get_index (s_cfg s)) dims) as [axes|]; [|discriminate]. cbn [rbind]. destruct (_ =? _)%nat.
  - intros X Y. injection X as <-. injection Y as <-. eauto.
  - intros X Y. pose proof (nd_op axes (seq 0 (length (get_pars (s_cfg s)))) _ _ _ D) as E. cbn zeta in *.
    destruct (nd_project_loop axes _ (s_data t)) as [c|e].
    + destruct E as (a1 & b1 & E1 & E2 & E). exists c. split; [reflexivity|]. congruence.
    + destruct E. congruence.
Qed.
Lemma project_s dim s o t a b : s_cfg o = s_cfg s -> s_add o s = (t, None) -> project dim s = Ok a -> project dim o = Ok b ->
  exists c, project dim t = Ok c /\ arr3 a b c.
Proof.
  intros C A. apply add_sum3 in A; [|exact C]. pose proof A as (_ & _ & Hc & Ho & _ & _ & _ & _ & D). unfold project. rewrite Hc, Ho.
  destruct (get_index (s_cfg s) dim) as [axis|]; [|discriminate]. cbn [rbind]. intros X Y.
  match goal with |- context [project_loop axis ?l (s_data t)] => pose proof (project_op axis l _ _ _ D) as E end.
  destruct (project_loop axis _ (s_data t)) as [c|e].
  + destruct E as (a1 & b1 & E1 & E2 & E). exists c. split; [reflexivity|]. congruence.
  + destruct E. congruence.
Qed.

(** ** Weighted smearing *)
(** Whether and where an entry goes depends on the axes and the shape only. *)
Lemma fill_three w1 w2 kw s o t s1 o1 : sum3 s o t -> fill w1 kw s = (s1, None) -> fill w2 kw o = (o1, None) ->
  exists t1, fill (w1 + w2)%Qc kw t = (t1, None) /\ sum3 s1 o1 t1.
Proof.
  intros H. pose proof H as (Hn & Hb & Hc & Ho & Hr & Hp & Hi & Hd & S1 & S2 & G). unfold fill, fill_data, aadd_at, rbind. rewrite Hc, Ho, S1, S2.
  destruct (fill_check_unknown _ _); [|discriminate]. destruct (fill_check_missing _ _); [|discriminate].
  destruct (fill_check_range _ _); [|discriminate]. destruct (fill_bins _ _) as [bins|]; [|discriminate].
  destruct (norm_indices bins (ashape (s_data t))) as [k|] eqn:N; [|discriminate]. intros E1 E2. injection E1 as <-. injection E2 as <-.
  eexists. split; [reflexivity|]. apply data3; [exact H|]. split; [exact S1|]. split; [exact S2|]. cbn. intros i V.
  apply norm_indices_valid in N. rewrite (G i V), (G k N). destruct (idx_eqb i k); ring.
Qed.
Lemma fill_left w kw s o t s1 : sum3 s o t -> fill w kw s = (s1, None) -> exists t1, fill w kw t = (t1, None) /\ sum3 s1 o t1.
Proof.
  intros H. pose proof H as (Hn & Hb & Hc & Ho & Hr & Hp & Hi & Hd & S1 & S2 & G). unfold fill, fill_data, aadd_at, rbind. rewrite Hc, S1.
  destruct (fill_check_unknown _ _); [|discriminate]. destruct (fill_check_missing _ _); [|discriminate].
  destruct (fill_check_range _ _); [|discriminate]. destruct (fill_bins _ _) as [bins|]; [|discriminate].
  destruct (norm_indices bins (ashape (s_data t))) as [k|] eqn:N; [|discriminate]. intro E1. injection E1 as <-.
  eexists. split; [reflexivity|]. apply data_left; [exact H|]. split; [exact S1|]. split; [exact S2|]. cbn. intros i V.
  apply norm_indices_valid in N. rewrite (G i V), (G k N). destruct (idx_eqb i k) eqn:K; [apply idx_eqb_eq in K; subst i|]; ring.
Qed.
Lemma fill_right w kw s o t o1 : sum3 s o t -> fill w kw o = (o1, None) -> exists t1, fill w kw t = (t1, None) /\ sum3 s o1 t1.
Proof.
  intros H. pose proof H as (Hn & Hb & Hc & Ho & Hr & Hp & Hi & Hd & S1 & S2 & G). unfold fill, fill_data, aadd_at, rbind. rewrite Hc, Ho, S2.
  destruct (fill_check_unknown _ _); [|discriminate]. destruct (fill_check_missing _ _); [|discriminate].
  destruct (fill_check_range _ _); [|discriminate]. destruct (fill_bins _ _) as [bins|]; [|discriminate].
  destruct (norm_indices bins (ashape (s_data t))) as [k|] eqn:N; [|discriminate]. intro E1. injection E1 as <-.
  eexists. split; [reflexivity|]. apply data_right; [exact H|]. split; [exact S1|]. split; [exact S2|]. cbn. intros i V.
  apply norm_indices_valid in N. rewrite (G i V), (G k N). destruct (idx_eqb i k) eqn:K; [apply idx_eqb_eq in K; subst i|]; ring.
Qed.
(** Entries with opposite weights cancel. *)
Lemma fill_cancel w1 w2 kw s o t s1 o1 : (w1 + w2 = 0)%Qc -> sum3 s o t -> fill w1 kw s = (s1, None) -> fill w2 kw o = (o1, None) -> sum3 s1 o1 t.
Proof.
  intros W H E1 E2. pose proof H as (Hn & Hb & Hc & Ho & Hr & Hp & Hi & Hd & S1 & S2 & G). revert E1 E2. unfold fill, fill_data, aadd_at, rbind. rewrite Ho, S1, S2.
  destruct (fill_check_unknown _ _); [|discriminate]. destruct (fill_check_missing _ _); [|discriminate].
  destruct (fill_check_range _ _); [|discriminate]. destruct (fill_bins _ _) as [bins|]; [|discriminate].
  destruct (norm_indices bins (ashape (s_data t))) as [k|] eqn:N; [|discriminate]. intros E1 E2. injection E1 as <-. injection E2 as <-.
  apply data_both; [exact H|]. split; [exact S1|]. split; [exact S2|]. cbn. intros i V.
  apply norm_indices_valid in N. rewrite (G i V). destruct (idx_eqb i k) eqn:K; [apply idx_eqb_eq in K; subst i|reflexivity].
  transitivity (aget (s_data s) k + aget (s_data o) k + (w1 + w2))%Qc; [rewrite W|]; ring.
Qed.
Definition entries (x : Qc) (l : list (Qc * dict Qc)) : list (Qc * dict Qc) := map (fun p => (x * fst p, snd p)%Qc) l.
Lemma list_three x y l : forall s o t s1 o1, sum3 s o t -> fill_list (entries x l) s = Ok s1 -> fill_list (entries y l) o = Ok o1 ->
  exists t1, fill_list (entries (x + y) l) t = Ok t1 /\ sum3 s1 o1 t1.
Proof.
  induction l as [|[w kw] l IH]; intros s o t s1 o1 H; cbn [fill_list entries map fst snd].
  - intros E1 E2. injection E1 as <-. injection E2 as <-. eauto.
  - destruct (fill (x * w)%Qc kw s) as [s' [|]] eqn:F1; [discriminate|]. destruct (fill (y * w)%Qc kw o) as [o' [|]] eqn:F2; [discriminate|].
    destruct (fill_three _ _ _ _ _ _ _ _ H F1 F2) as (t' & F3 & H'). replace ((x + y) * w)%Qc with (x * w + y * w)%Qc by ring. rewrite F3. now apply IH.
Qed.
Lemma list_left l : forall s o t s1, sum3 s o t -> fill_list l s = Ok s1 -> exists t1, fill_list l t = Ok t1 /\ sum3 s1 o t1.
Proof.
  induction l as [|[w kw] l IH]; intros s o t s1 H; cbn [fill_list].
  - intros E1. injection E1 as <-. eauto.
  - destruct (fill w kw s) as [s' [|]] eqn:F1; [discriminate|]. destruct (fill_left _ _ _ _ _ _ H F1) as (t' & F3 & H'). rewrite F3. now apply IH.
Qed.
Lemma list_right l : forall s o t o1, sum3 s o t -> fill_list l o = Ok o1 -> exists t1, fill_list l t = Ok t1 /\ sum3 s o1 t1.
Proof.
  induction l as [|[w kw] l IH]; intros s o t s1 H; cbn [fill_list].
  - intros E1. injection E1 as <-. eauto.
  - destruct (fill w kw o) as [s' [|]] eqn:F1; [discriminate|]. destruct (fill_right _ _ _ _ _ _ H F1) as (t' & F3 & H'). rewrite F3. now apply IH.
Qed.
Lemma list_cancel x y l : (x + y = 0)%Qc -> forall s o t s1 o1, sum3 s o t -> fill_list (entries x l) s = Ok s1 -> fill_list (entries y l) o = Ok o1 -> sum3 s1 o1 t.
Proof.
  intro Z. induction l as [|[w kw] l IH]; intros s o t s1 o1 H; cbn [fill_list entries map fst snd].
  - intros E1 E2. injection E1 as <-. injection E2 as <-. exact H.
  - destruct (fill (x * w)%Qc kw s) as [s' [|]] eqn:F1; [discriminate|]. destruct (fill (y * w)%Qc kw o) as [o' [|]] eqn:F2; [discriminate|].
    apply IH. refine (fill_cancel _ _ _ _ _ _ _ _ _ H F1 F2). replace (x * w + y * w)%Qc with ((x + y) * w)%Qc by ring. rewrite Z. ring.
Qed.
(** The fills of one bin are its contents times a list that does not depend on them. *)
Lemma bin_fills_form nsig sigma W cf par p bin : exists r, forall x,
  bin_fills nsig sigma W cf par p x bin = if qeq x 0 then Ok [] else rmap (entries x) r.
Proof.
  unfold bin_fills, rbind. destruct (bin_means cf bin) as [data|e]; [|exists (Err e); reflexivity]. destruct (dlookup par data) as [mean|e]; [|exists (Err e); reflexivity].
  destruct (smear_window nsig sigma p mean) as [es|e]; [|exists (Err e); reflexivity]. cbn zeta. generalize (qsum (map (fun e => W e mean) es)). intro tw.
  exists (rmapM (fun e => do w <- qdiv (W e mean) tw; Ok (w, dset par e data)) es). intro x. destruct (qeq x 0); [reflexivity|].
  induction es as [|e es IH]; [reflexivity|]. cbn [rmapM]. unfold rbind in *. revert IH.
  generalize (rmapM (fun e => match qdiv (W e mean) tw with Ok a => Ok (a, dset par e data) | Err e0 => Err e0 end) es). intros r IH. rewrite IH. unfold qdiv.
  destruct (qeqP tw 0) as [|N]; [reflexivity|]. destruct r as [r|]; [|reflexivity]. cbn. do 3 f_equal. unfold Qcdiv. ring.
Qed.
Lemma bins_three (f g h : list nat -> res (list (Qc * dict Qc))) bins :
  (forall b l m, f b = Ok l -> g b = Ok m -> exists n, h b = Ok n /\ forall s o t s1 o1, sum3 s o t -> fill_list l s = Ok s1 -> fill_list m o = Ok o1 ->
     exists t1, fill_list n t = Ok t1 /\ sum3 s1 o1 t1) ->
  forall s o t s1 o1, sum3 s o t -> smear_bins f bins s = Ok s1 -> smear_bins g bins o = Ok o1 -> exists t1, smear_bins h bins t = Ok t1 /\ sum3 s1 o1 t1.
Proof.
  intro F. induction bins as [|b bins IH]; intros s o t s1 o1 H; cbn [smear_bins].
  - intros E1 E2. injection E1 as <-. injection E2 as <-. eauto.
  - unfold rbind. destruct (f b) as [l|] eqn:L; [|discriminate]. destruct (g b) as [m|] eqn:M; [|intros; discriminate]. destruct (F b l m L M) as (n & -> & K).
    destruct (fill_list l s) as [s'|] eqn:E1; [|discriminate]. destruct (fill_list m o) as [o'|] eqn:E2; [|intros; discriminate].
    destruct (K _ _ _ _ _ H E1 E2) as (t' & -> & H'). now apply IH.
Qed.
Lemma target3 suffix s o t : sum3 s o t -> sum3 (smear_target suffix s) (smear_target suffix o) (smear_target suffix t).
Proof.
  intros (Hn & Hb & Hc & Ho & Hr & Hp & Hi & Hd & S1 & S2 & G). unfold sum3, smear_target. cbn. repeat (split; [cbn; congruence|]).
  intros i _. cbn. ring.
Qed.
Lemma smear_adds suffix nsig sigma W par : adds_up any_spectrum (weighted_smear suffix nsig sigma W par).
Proof.
  apply adds_up_of. intros s o t s1 o1 _ _ H. pose proof H as (Hn & Hb & Hc & Ho & Hr & Hp & Hi & Hd & S1 & S2 & G). unfold weighted_smear. rewrite Hc, Ho, S1, S2.
  destruct (negb _); [discriminate|]. unfold rbind. destruct (get_par (s_cfg s) par) as [p|]; [|discriminate]. destruct (rmapM _ (s_cfg s)); [|discriminate]. cbn zeta.
  apply bins_three; [|now apply target3]. intros b l m. destruct (in_shape b (ashape (s_data t))) eqn:I; [|discriminate].
  rewrite (G b) by now apply in_shape_valid. destruct (bin_fills_form nsig sigma W (s_cfg s) par p b) as [r R]. rewrite !R.
  destruct (qeqP (aget (s_data s) b) 0) as [X|X].
  - intro E. injection E as <-. rewrite X. replace (0 + aget (s_data o) b)%Qc with (aget (s_data o) b) by ring. intros ->. exists m. split; [reflexivity|].
    intros s' o' t' s1' o1' H' E1 E2. injection E1 as <-. now apply (list_right m _ _ _ _ H').
  - destruct (qeqP (aget (s_data o) b) 0) as [Y|Y].
    + intros E1 E. injection E as <-. rewrite Y. replace (aget (s_data s) b + 0)%Qc with (aget (s_data s) b) by ring. exists l. split.
      { destruct (qeqP (aget (s_data s) b) 0); [contradiction|exact E1]. }
      intros s' o' t' s1' o1' H' E3 E2. injection E2 as <-. now apply (list_left l _ _ _ _ H').
    + destruct r as [r|]; [|discriminate]. cbn [rmap]. intros E1 E2. injection E1 as <-. injection E2 as <-.
      destruct (qeqP (aget (s_data s) b + aget (s_data o) b) 0) as [Z|Z].
      * exists []. split; [reflexivity|]. intros s' o' t' s1' o1' H' E3 E4. exists t'. split; [reflexivity|]. exact (list_cancel _ _ r Z _ _ _ _ _ H' E3 E4).
      * exists (entries (aget (s_data s) b + aget (s_data o) b) r). split; [reflexivity|]. intros s' o' t' s1' o1' H'. now apply list_three.
Qed.

(** ** Shifting by whole bins *)
Definition nonneg_arr (a : ndarray) : Prop := forall i, valid_idx (ashape a) i -> (0 <= aget a i)%Qc.
(** What a bin receives from the bin it is shifted from, whether or not that is empty. *)
Definition received (k old : nat) (a : ndarray) (i : list nat) : Qc := if (old <? nth k (ashape a) 0)%nat then slice_at k old a i else 0%Qc.
Lemma received_val k old bin a acc i : nonneg_arr a -> ashape acc = ashape a -> valid_idx (ashape a) i ->
  aget (if qlt 0 (slice_sum k old a) then add_slice k bin (slice_at k old a) acc else acc) i =
  (aget acc i + if (nth k i 0 =? bin)%nat then received k old a i else 0)%Qc.
Proof.
  intros N S V. unfold received. destruct (qlt 0 (slice_sum k old a)) eqn:Q.
  - apply slice_sum_pos' in Q. apply Nat.ltb_lt in Q. rewrite Q. cbn. destruct (_ =? _)%nat; ring.
  - destruct (_ =? _)%nat; [|ring]. destruct (Nat.ltb_spec old (nth k (ashape a) 0)) as [L|]; [|ring].
    assert (K : (slice_at k old a i <= slice_sum k old a)%Qc).
    { unfold slice_sum. apply Nat.ltb_lt in L as L'. rewrite L'. unfold slice_at, set_at.
      apply (sum_over_ge_one _ (fun idx => aget a (insert_at k old idx))); [|now apply valid_remove].
      intros j J. apply N. apply valid_insert; [exact J|now apply nth_shape_lt in L|exact L]. }
    assert (K0 : (0 <= slice_at k old a i)%Qc).
    { apply N. unfold set_at. apply valid_insert; [now apply valid_remove|now apply nth_shape_lt in L|exact L]. }
    apply qlt_false in Q. assert (E : slice_at k old a i = 0%Qc) by (apply Qcle_antisym; [exact (Qcle_trans _ _ _ K Q)|exact K0]).
    rewrite E. ring.
Qed.
Lemma received_plus k old a b c i : arr3 a b c -> valid_idx (ashape c) i -> received k old c i = (received k old a i + received k old b i)%Qc.
Proof.
  intros (S1 & S2 & G) V. unfold received. rewrite S1, S2. destruct (Nat.ltb_spec old (nth k (ashape c) 0)) as [L|]; [|ring].
  unfold slice_at. apply G. unfold set_at. apply valid_insert; [now apply valid_remove|now apply nth_shape_lt in L|exact L].
Qed.
Lemma nonneg3 a b c : arr3 a b c -> nonneg_arr a -> nonneg_arr b -> nonneg_arr c.
Proof.
  intros (S1 & S2 & G) A B i V. rewrite (G i V). rewrite <- (Qcplus_0_l 0). apply Qcplus_le_compat; [apply A|apply B]; congruence.
Qed.
Lemma one_three shift step k p a b c bin x y z x1 y1 : nonneg_arr a -> nonneg_arr b -> arr3 a b c -> arr3 x y z -> ashape z = ashape c ->
  shift_one shift step k p a bin x = Ok x1 -> shift_one shift step k p b bin y = Ok y1 ->
  exists z1, shift_one shift step k p c bin z = Ok z1 /\ arr3 x1 y1 z1 /\ ashape z1 = ashape c.
Proof.
  intros Na Nb A X Sz. pose proof (nonneg3 _ _ _ A Na Nb) as Nc. pose proof A as (S1 & S2 & _). pose proof X as (T1 & T2 & G). unfold shift_one. destruct (_ || _)%bool.
  - intros E1 E2. injection E1 as <-. injection E2 as <-. eauto.
  - unfold rbind. destruct (get_bin p _) as [ob|]; [|discriminate]. cbn zeta. set (old := Z.to_nat ob).
    intros E1 E2.
    assert (F : forall w acc, (if qlt 0 (slice_sum k old w) then Ok (add_slice k bin (slice_at k old w) acc) else Ok acc) =
      Ok (if qlt 0 (slice_sum k old w) then add_slice k bin (slice_at k old w) acc else acc)) by (intros w acc; destruct (qlt 0 (slice_sum k old w)); reflexivity).
    assert (Sh : forall w acc, ashape (if qlt 0 (slice_sum k old w) then add_slice k bin (slice_at k old w) acc else acc) = ashape acc) by (intros w acc; destruct (qlt 0 (slice_sum k old w)); reflexivity).
    rewrite F in E1, E2. injection E1 as <-. injection E2 as <-. rewrite F. eexists. split; [reflexivity|]. split; [|rewrite Sh; exact Sz].
    split; [rewrite !Sh; exact T1|]. split; [rewrite !Sh; exact T2|]. rewrite Sh. intros i V.
    rewrite !received_val; try assumption; try congruence. rewrite (G i V), (received_plus k old a b c i A) by congruence. destruct (_ =? _)%nat; ring.
Qed.
Lemma loop_three shift step k p a b c : nonneg_arr a -> nonneg_arr b -> arr3 a b c -> forall bins x y z x1 y1, arr3 x y z -> ashape z = ashape c ->
  loop_bins (shift_one shift step k p a) bins x = Ok x1 -> loop_bins (shift_one shift step k p b) bins y = Ok y1 ->
  exists z1, loop_bins (shift_one shift step k p c) bins z = Ok z1 /\ arr3 x1 y1 z1.
Proof.
  intros Na Nb A. induction bins as [|bin bins IH]; intros x y z x1 y1 X Sz; cbn [loop_bins].
  - intros E1 E2. injection E1 as <-. injection E2 as <-. eauto.
  - unfold rbind. destruct (shift_one shift step k p a bin x) as [x'|] eqn:E1; [|discriminate]. destruct (shift_one shift step k p b bin y) as [y'|] eqn:E2; [|intros; discriminate].
    destruct (one_three _ _ _ _ _ _ _ _ _ _ _ _ _ Na Nb A X Sz E1 E2) as (z' & -> & X' & Sz'). now apply IH.
Qed.
Lemma zeros3 a b c : arr3 a b c -> arr3 (azeros (ashape a)) (azeros (ashape b)) (azeros (ashape c)).
Proof. intros (S1 & S2 & _). split; [exact S1|]. split; [exact S2|]. intros i _. cbn. ring. Qed.
Lemma shift_adds suffix shift dim : adds_up nonneg (shift_by_bin suffix shift dim).
Proof.
  apply adds_up_of. intros s o t s1 o1 Ns No H. pose proof H as (Hn & Hb & Hc & Ho & Hr & Hp & Hi & Hd & A). unfold shift_by_bin, rbind. rewrite Hc, Ho.
  destruct (get_par (s_cfg s) dim) as [p|]; [|discriminate]. destruct (get_width p) as [step|]; [|discriminate]. destruct (is_multiple shift step) as [m|]; [|discriminate].
  destruct (negb m); [discriminate|]. destruct (get_index (s_cfg s) dim) as [k|]; [|discriminate].
  destruct (loop_bins (shift_one shift step k p (s_data s)) _ _) as [x|] eqn:E1; [|discriminate].
  destruct (loop_bins (shift_one shift step k p (s_data o)) _ _) as [y|] eqn:E2; [|intros; discriminate].
  destruct (loop_three shift step k p _ _ _ Ns No A _ _ _ _ _ _ (zeros3 _ _ _ A) eq_refl E1 E2) as (z & -> & X).
  intros F1 F2. injection F1 as <-. injection F2 as <-. eexists. split; [reflexivity|]. apply data3; [now apply target3|exact X].
Qed.

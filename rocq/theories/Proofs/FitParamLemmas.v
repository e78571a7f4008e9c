(** Lemmas for Model/FitParam.v. *)
From Coq Require Import Lia Field.
From Verif Require Import Model.Base Model.PyStr Model.NDArray Model.Param Model.Config Model.Spectra Model.FitParam.
From Verif Require Import Spec.ArraySpec Spec.SpectraSpec Spec.FitSpec.
From Verif Require Import Proofs.QcLemmas Proofs.ParamLemmas Proofs.DictLemmas Proofs.OpsLemmas.

Lemma first_index_some f l k : first_index f l = Some k ->
  (k < length l)%nat /\ f (nth k l 0%Qc) = true /\ (forall j, (j < k)%nat -> f (nth j l 0%Qc) = false).
Proof.
  revert k. induction l as [|x l IH]; cbn; intros k; [discriminate|].
  destruct (f x) eqn:F.
  - intro E. injection E as <-. split; [lia|]. split; [exact F|lia].
  - destruct (first_index f l) as [m|]; [|discriminate]. intro E. injection E as <-.
    destruct (IH m eq_refl) as (A & B & C). split; [lia|]. split; [exact B|].
    intros [|j] J; [exact F|]. apply C. lia.
Qed.
Lemma first_index_none f l : first_index f l = None <-> (forall x, In x l -> f x = false).
Proof.
  induction l as [|x l IH]; cbn; [split; [intros _ ? []|reflexivity]|].
  destruct (f x) eqn:F.
  - split; [discriminate|]. intro H. rewrite (H x) in F by (left; reflexivity). discriminate.
  - destruct (first_index f l); cbn.
    + split; [discriminate|]. intro H. destruct IH as [_ IH]. discriminate IH. intros; apply H; right; assumption.
    + split; [|reflexivity]. intros _ y [<-|I]; [exact F|]. apply (proj1 IH); [reflexivity|exact I].
Qed.
Lemma first_index_at f l k : (k < length l)%nat -> f (nth k l 0%Qc) = true ->
  (forall j, (j < k)%nat -> f (nth j l 0%Qc) = false) -> first_index f l = Some k.
Proof.
  revert k. induction l as [|x l IH]; cbn; intros k K; [lia|]. destruct k as [|k].
  - intros -> _. reflexivity.
  - intros F H. rewrite (H 0%nat ltac:(lia)). rewrite (IH k ltac:(lia) F); [reflexivity|].
    intros j J. apply (H (S j)). lia.
Qed.
Lemma norm_index_nat i n : (i < n)%nat -> norm_index (Z.of_nat i) n = Ok i.
Proof.
  intro H. unfold norm_index. destruct (Z.ltb_spec (Z.of_nat i) 0); [lia|].
  destruct (Z.leb_spec 0 (Z.of_nat i)); [|lia]. destruct (Z.ltb_spec (Z.of_nat i) (Z.of_nat n)); [|lia].
  cbn. rewrite Nat2Z.id. reflexivity.
Qed.

Section P.
Variable g : fpar -> res (list Qc).
Lemma value_at_index_l p l i : snd (get_values g p) = Ok l -> NoDup l -> (i < length l)%nat ->
  exists v, snd (get_value_at g p (Z.of_nat i)) = Ok v /\ nth_error l i = Some v /\ snd (get_value_index g p v) = Ok i.
Proof.
  intros E N I. unfold get_value_at, get_value_index. destruct (get_values g p) as [p' r]. cbn in *. subst r. cbn.
  rewrite norm_index_nat by exact I. cbn. eexists. split; [reflexivity|]. split; [apply nth_error_nth', I|].
  rewrite (first_index_at _ _ i I); [reflexivity|apply qeq_iff; reflexivity|].
  intros j J. apply qeq_false. intro C. apply (proj1 (NoDup_nth l 0%Qc) N j i) in C; lia.
Qed.
Lemma value_index_l p l v : snd (get_values g p) = Ok l ->
  (forall k, snd (get_value_index g p v) = Ok k ->
     nth_error l k = Some v /\ forall j, (j < k)%nat -> nth_error l j <> Some v) /\
  (In v l -> exists k, snd (get_value_index g p v) = Ok k) /\
  (~ In v l -> snd (get_value_index g p v) = Err ETypeError).
Proof.
  intro E. unfold get_value_index. destruct (get_values g p) as [p' r]. cbn in *. subst r. cbn. split; [|split].
  - intro k. destruct (first_index _ l) as [m|] eqn:F; [|discriminate]. intro H. injection H as <-.
    apply first_index_some in F as (A & B & C). apply qeq_iff in B. split.
    + rewrite (nth_error_nth' l 0%Qc A), B. reflexivity.
    + intros j J. rewrite (nth_error_nth' l 0%Qc) by lia. intro H. injection H as H. apply C in J. apply qeq_false in J. contradiction.
  - intro I. destruct (first_index _ l) eqn:F; [eexists; reflexivity|]. exfalso.
    apply (proj1 (first_index_none _ _) F) in I. apply qeq_false in I. contradiction.
  - intro I. destruct (first_index _ l) eqn:F; [|reflexivity]. exfalso. apply first_index_some in F as (A & B & _).
    apply qeq_iff in B. apply I. rewrite <- B. apply nth_In, A.
Qed.
Lemma get_bin_l p l i : snd (get_values g p) = Ok l -> (i < length l)%nat ->
  (forall j, (j < i)%nat -> isclose (nth j l 0%Qc) (nth i l 0%Qc) = false) ->
  snd (fp_get_bin g p (nth i l 0%Qc)) = Ok (Z.of_nat i).
Proof.
  intros E I H. unfold fp_get_bin. destruct (get_values g p) as [p' r]. cbn in *. subst r.
  rewrite (first_index_at _ _ i I); [reflexivity|apply isclose_refl|exact H].
Qed.
Lemma cached_l p l : snd (get_values g p) = Ok l ->
  snd (get_values g (fst (get_values g p))) = Ok l /\ fst (get_values g (fst (get_values g p))) = fst (get_values g p).
Proof.
  intro E. assert (H : fp_values (fst (get_values g p)) = Some l).
  { unfold get_values in *. destruct (fp_values p) as [v|] eqn:V; cbn [fst snd] in *.
    - injection E as ->. exact V.
    - destruct (if truthy (fp_logscale p) || truthy (fp_logdev p) then g p else linspace (fp_low p) (fp_high p) (fp_bins p)) as [v|e];
        cbn in *; [injection E as ->; reflexivity|discriminate]. }
  unfold get_values at 1 3. rewrite H. split; reflexivity.
Qed.
Lemma linear_values_l p : fp_values p = None -> truthy (fp_logscale p) = false -> truthy (fp_logdev p) = false ->
  (fp_low p < fp_high p)%Qc -> (2 <= fp_bins p)%Z ->
  exists l, snd (get_values g p) = Ok l /\ length l = Z.to_nat (fp_bins p) /\ NoDup l /\
    (forall k, (k < length l)%nat ->
       nth_error l k = Some (fp_low p + nq k * ((fp_high p - fp_low p) / zq (fp_bins p - 1)))%Qc).
Proof.
  intros V A B L N. unfold get_values. rewrite V, A, B. cbn [orb]. unfold linspace.
  destruct (Z.ltb_spec (fp_bins p) 0); [lia|]. cbn. eexists. split; [reflexivity|].
  rewrite map_length, seq_length. split; [reflexivity|].
  assert (P : (0 < (fp_high p - fp_low p) / zq (fp_bins p - 1))%Qc).
  { apply Qcdiv_pos; [qlra|]. rewrite <- zq_0. apply (proj1 (zq_lt _ _)). lia. }
  split.
  - apply (proj2 (NoDup_nth _ 0%Qc)). rewrite map_length, seq_length. intros i j I J.
    rewrite (nth_indep _ 0%Qc (fp_low p + nq 0 * ((fp_high p - fp_low p) / zq (fp_bins p - 1)))%Qc) by (rewrite map_length, seq_length; exact I).
    rewrite (map_nth (fun k => fp_low p + nq k * ((fp_high p - fp_low p) / zq (fp_bins p - 1)))%Qc), seq_nth by exact I.
    rewrite (nth_indep _ 0%Qc (fp_low p + nq 0 * ((fp_high p - fp_low p) / zq (fp_bins p - 1)))%Qc) by (rewrite map_length, seq_length; exact J).
    rewrite (map_nth (fun k => fp_low p + nq k * ((fp_high p - fp_low p) / zq (fp_bins p - 1)))%Qc), seq_nth by exact J.
    cbn [plus]. set (c := ((fp_high p - fp_low p) / zq (fp_bins p - 1))%Qc) in *. intro E.
    destruct (lt_eq_lt_dec i j) as [[H1| ->]|H1]; [exfalso|reflexivity|exfalso].
    + apply nq_lt in H1. assert (0 < (nq j - nq i) * c)%Qc by (apply Qcmul_pos; [qlra|exact P]).
      assert ((nq j - nq i) * c = 0)%Qc as Z0 by (clearbody c; qlra). rewrite Z0 in H0. qlra.
    + apply nq_lt in H1. assert (0 < (nq i - nq j) * c)%Qc by (apply Qcmul_pos; [qlra|exact P]).
      assert ((nq i - nq j) * c = 0)%Qc as Z0 by (clearbody c; qlra). rewrite Z0 in H0. qlra.
  - intros k K. rewrite nth_error_map, (nth_error_nth' (seq 0 _) 0%nat) by (rewrite seq_length; exact K).
    rewrite seq_nth by exact K. reflexivity.
Qed.
End P.

(** ** rates *)
Lemma rate_unset_l p s : fp_current p = None -> rate_apply p s = (s, Some EValueError).
Proof. intro H. unfold rate_apply. rewrite H. reflexivity. Qed.
Lemma rate_l p s r : s_decays s <> 0%Qc ->
  exists s', rate_apply (set_current_value r p) s = (s', None) /\ s_decays s' = r /\ s_cfg s' = s_cfg s /\
    (forall idx, aget (s_data s') idx = (aget (s_data s) idx * (r / s_decays s))%Qc).
Proof.
  intro D. destruct (scale_l s r D) as (s' & E & A & B & _ & _ & _ & _ & C & _). exists s'. split; [exact E|]. auto.
Qed.
Lemma apply_scale p r s : rate_step p (s, None) r = scale r s. Proof. reflexivity. Qed.
Lemma scale_eq s r : s_decays s <> 0%Qc ->
  scale r s = (with_decays (with_data s (amap (fun x => x * (r / s_decays s))%Qc (s_data s))) r, None).
Proof. intro D. unfold scale. rewrite qdiv_ok by exact D. reflexivity. Qed.
Lemma scale_same s s' r : s_decays s <> 0%Qc -> same_spectra s s' ->
  same_spectra (fst (scale r s)) (fst (scale r s')) /\ snd (scale r s') = None.
Proof.
  intros D [M H]. assert (E : s_decays s = s_decays s') by (unfold same_meta in M; tauto).
  assert (D' : s_decays s' <> 0%Qc) by (rewrite <- E; exact D).
  rewrite !scale_eq by assumption. cbn [fst snd]. split; [|reflexivity]. split.
  - unfold same_meta in *. cbn. tauto.
  - intros idx I. cbn in *. rewrite H by exact I. rewrite E. reflexivity.
Qed.
Lemma rates_l p rs r s : s_decays s <> 0%Qc -> Forall (fun x => x <> 0%Qc) rs ->
  exists s1 s2, apply_rates p (rs ++ [r]) s = (s1, None) /\ apply_rates p [r] s = (s2, None) /\
    s_decays s1 = r /\ same_spectra s1 s2.
Proof.
  intros D F. unfold apply_rates. rewrite fold_left_app. cbn [fold_left]. rewrite apply_scale.
  enough (exists s', fold_left (rate_step p) rs (s, None) = (s', None)
    /\ s_decays s' <> 0%Qc /\ forall x, same_spectra (fst (scale x s')) (fst (scale x s))) as (s' & E & D' & S).
  { rewrite E. rewrite apply_scale. specialize (S r). rewrite !scale_eq in * by assumption. eexists _, _.
    split; [reflexivity|]. split; [reflexivity|]. split; [reflexivity|exact S]. }
  revert s D. induction F as [|a l A F IH]; intros s D.
  - exists s. split; [reflexivity|]. split; [exact D|]. intro x. split; [repeat split|reflexivity].
  - cbn [fold_left]. rewrite apply_scale, scale_eq by exact D.
    destruct (IH (with_decays (with_data s (amap (fun x => x * (a / s_decays s))%Qc (s_data s))) a)) as (s' & E & D' & S); [exact A|].
    exists s'. split; [exact E|]. split; [exact D'|]. intro x. specialize (S x).
    rewrite (scale_eq (with_decays _ _)) in S by exact A. rewrite (scale_eq s) by exact D.
    destruct S as [M H]. split; [unfold same_meta in *; cbn in *; tauto|].
    intros idx I. rewrite H by exact I. cbn. field. auto.
Qed.

(** ** set_par *)
Lemma set_one_values p kw v p' : set_one p kw v = Ok p' -> fp_values p' = fp_values p.
Proof.
  unfold set_one. repeat (destruct (String.eqb _ _)); try discriminate;
    try (intro E; injection E as <-; reflexivity);
    (destruct (kw_float v); [cbn; intro E; injection E as <-; reflexivity|discriminate]).
Qed.
Lemma set_pars_cleared kws p p' : set_pars kws p = (p', None) -> fp_values p' = None.
Proof.
  revert p. induction kws as [|[k v] kws IH]; intros p; cbn [set_pars].
  - intro E. injection E as <-. reflexivity.
  - destruct (attribute p k); [|discriminate]. destruct (_ && _); [|discriminate].
    destruct (set_one p k v); [apply IH|discriminate].
Qed.
Lemma set_par_numbers_l kws p :
  Forall (fun kv => In (fst kv) ["prior"; "low"; "high"]%string) kws ->
  exists p', set_pars (map (fun kv => (fst kv, KNum (snd kv))) kws) p = (p', None) /\
    fp_prior p' = last_given "prior" kws (fp_prior p) /\
    fp_low p' = last_given "low" kws (fp_low p) /\
    fp_high p' = last_given "high" kws (fp_high p) /\
    fp_bins p' = fp_bins p /\ fp_logscale p' = fp_logscale p /\ fp_logdev p' = fp_logdev p /\
    fp_values p' = None.
Proof.
  intro F. revert p. induction F as [|[k x] kws K F IH]; intro p.
  - eexists. split; [reflexivity|]. repeat split.
  - cbn [fst] in K. cbn [map set_pars fst snd]. cbn in K.
    destruct K as [<-|[<-|[<-|[]]]]; cbn [attribute dget String.eqb Ascii.eqb Bool.eqb formats andb];
      cbn [set_one String.eqb Ascii.eqb Bool.eqb kw_float rbind];
      match goal with |- exists p', set_pars _ ?q = _ /\ _ => destruct (IH q) as (p' & E & R) end;
      (exists p'; split; [exact E|exact R]).
Qed.
Lemma set_par_bins_l p n : exists p', set_pars [("bins", KNum (zq n))]%string p = (p', None) /\ fp_bins p' = n /\
  fp_low p' = fp_low p /\ fp_high p' = fp_high p /\ fp_logscale p' = fp_logscale p /\ fp_logdev p' = fp_logdev p /\ fp_values p' = None.
Proof. eexists. split; [reflexivity|]. cbn. rewrite qtrunc_zq. repeat split. Qed.
Lemma set_par_rejected_l p k v p' e : set_pars [(k, v)] p = (p', Some e) -> p' = p.
Proof.
  cbn [set_pars]. destruct (attribute p k); [|intro E; injection E; auto].
  destruct (_ && _); [|intro E; injection E; auto]. destruct (set_one p k v); [discriminate|intro E; injection E; auto].
Qed.
Lemma fresh_grid_l g p : fp_values p = None -> truthy (fp_logscale p) = false -> truthy (fp_logdev p) = false ->
  snd (get_values g p) = linspace (fp_low p) (fp_high p) (fp_bins p).
Proof.
  intros V A B. unfold get_values. rewrite V, A, B. cbn [orb]. destruct (linspace _ _ _); reflexivity.
Qed.

(** ** set_par, one keyword *)
Lemma set_par_exact_l p k v x : field p k <> None -> number_of v = Some x ->
  exists p', set_pars [(k, v)] p = (p', None) /\ field p' k = Some (stored k x) /\ (forall k', k' <> k -> field p' k' = field p k') /\ same_rest p p' /\ fp_values p' = None.
Proof.
  intros F N.
  assert (Fm : formats v = true) by (destruct v; [reflexivity|reflexivity|discriminate|discriminate]).
  assert (Fl : kw_float v = Ok x) by (destruct v as [y|[]| |]; cbn in *; congruence).
  assert (Bo : kw_bool v = negb (qeq x 0)).
  { destruct v as [y|[]| |]; cbn in *; try discriminate; injection N as <-; reflexivity. }
  destruct p as [nm pr sg lo hi bi di va cu be pe ls ba ld]. unfold field in F.
  repeat match type of F with (if String.eqb k ?d then _ else _) <> None => destruct (String.eqb_spec k d) as [->|?]; [|] end; try congruence; cbn in F;
    unfold set_pars, attribute; cbn [dget String.eqb Ascii.eqb Bool.eqb];
    try (destruct sg as [sg|]; [|congruence]); try (destruct ls as [ls|]; [|cbn in F; congruence]); try (destruct ba as [ba|]; [|congruence]); try (destruct ld as [ld|]; [|cbn in F; congruence]);
    cbn [formats onum obool fp_sigma fp_logscale fp_base fp_logdev andb]; rewrite Fm; unfold set_one; cbn [String.eqb Ascii.eqb Bool.eqb];
    rewrite ?Fl, ?Bo; cbn [rbind fp_with_values fp_name fp_prior fp_sigma fp_low fp_high fp_bins fp_dim fp_values fp_current fp_best fp_penalty fp_logscale fp_base fp_logdev];
    (eexists; split; [reflexivity|]; split; [cbn; reflexivity|]; split; [|split; [repeat split|reflexivity]]);
    intros k' K; unfold field; cbn [fp_name fp_prior fp_sigma fp_low fp_high fp_bins fp_dim fp_values fp_current fp_best fp_penalty fp_logscale fp_base fp_logdev];
    repeat match goal with |- context [String.eqb k' ?d] => destruct (String.eqb_spec k' d) as [->|?]; [try reflexivity; try congruence|] end; reflexivity.
Qed.
Lemma set_par_refused_l p k v : field p k = None \/ number_of v = None ->
  set_pars [(k, v)] p = (p, Some (if str_in k attribute_names then ETypeError else EKeyError)).
Proof.
  intro H. unfold set_pars.
  assert (A : attribute p k = None <-> str_in k attribute_names = false).
  { unfold attribute, str_in, attribute_names. cbn [dget existsb]. 
    repeat match goal with |- context [String.eqb k ?d] => destruct (String.eqb k d); [cbn; split; discriminate|cbn [orb]] end. tauto. }
  destruct (attribute p k) as [old|] eqn:O.
  2:{ rewrite (proj1 A eq_refl). reflexivity. }
  assert (I : str_in k attribute_names = true) by (destruct (str_in k attribute_names); [reflexivity|]; discriminate (proj2 A eq_refl)).
  rewrite I. destruct H as [H|H].
  - destruct (formats old && formats v)%bool eqn:F; [|reflexivity]. apply andb_true_iff in F as [F1 F2].
    assert (set_one p k v = Err ETypeError) as ->; [|reflexivity].
    revert O H. unfold attribute, field, set_one. cbn [dget].
    repeat match goal with |- context [String.eqb k ?d] => destruct (String.eqb_spec k d) as [->|?]; cbn [String.eqb Ascii.eqb Bool.eqb] end;
      intros O H; try reflexivity; try discriminate; exfalso; injection O as <-;
      try (rewrite H in F1; discriminate F1);
      try (destruct (fp_logscale p); [discriminate H|discriminate F1]); try (destruct (fp_logdev p); [discriminate H|discriminate F1]);
      try (destruct (fp_dim p); discriminate F1).
  - assert (formats v = false) as -> by (destruct v; [discriminate H|discriminate H|reflexivity|reflexivity]). now rewrite andb_false_r.
Qed.
Lemma set_pars_values kws : forall p w q, set_pars kws p = (q, None) -> set_pars kws (fp_with_values p w) = (q, None).
Proof.
  induction kws as [|[k v] r IH]; intros p w q0 H; [exact H|]. cbn [set_pars] in *.
  change (attribute (fp_with_values p w) k) with (attribute p k). destruct (attribute p k) as [old|]; [|discriminate].
  destruct (formats old && formats v)%bool; [|discriminate].
  assert (E : forall q, set_one p k v = Ok q -> exists w', set_one (fp_with_values p w) k v = Ok (fp_with_values q w')).
  { intros q. unfold set_one. repeat match goal with |- context [if String.eqb k ?d then _ else _] => destruct (String.eqb k d); [destruct (kw_float v); cbn; intro Q; try discriminate; injection Q as <-; exists w; reflexivity|] end. discriminate. }
  destruct (set_one p k v) as [q|]; [|discriminate]. destruct (E q eq_refl) as [w' ->]. now apply IH.
Qed.
Lemma set_pars_list a : forall b p p1 p2, set_pars a p = (p1, None) -> set_pars b p1 = (p2, None) -> set_pars (a ++ b) p = (p2, None).
Proof.
  induction a as [|[k v] a IH]; intros b p p1 p2 A B; cbn [app].
  - injection A as <-. apply (set_pars_values b _ (fp_values p)) in B. destruct p. exact B.
  - cbn [set_pars] in *. destruct (attribute p k) as [old|]; [|discriminate]. destruct (formats old && formats v)%bool; [|discriminate].
    destruct (set_one p k v) as [q|]; [|discriminate]. now apply IH with p1.
Qed.
Lemma get_bin_other_l g p l v : snd (get_values g p) = Ok l -> (forall x, In x l -> isclose x v = false) -> fp_low p <> fp_high p ->
  snd (fp_get_bin g p v) = Ok (qtrunc ((v - fp_low p) / (fp_high p - fp_low p) * zq (fp_bins p))%Qc).
Proof.
  intros V N D. unfold fp_get_bin. destruct (get_values g p) as [p' r]. cbn in V. subst r. cbn [snd].
  assert (first_index (fun x => isclose x v) l = None) as ->.
  { induction l as [|x l IH]; [reflexivity|]. cbn. rewrite (N x (or_introl eq_refl)). rewrite IH; [reflexivity|]. intros y Y. apply N. now right. }
  unfold qdiv. destruct (qeq (fp_high p - fp_low p) 0)%Qc eqn:E; [|reflexivity]. exfalso. apply D. apply qeq_iff in E.
  symmetry. replace (fp_high p) with (fp_high p - fp_low p + fp_low p)%Qc by ring. rewrite E. ring.
Qed.

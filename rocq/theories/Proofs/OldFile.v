(** Files of the old format. *)
From Coq Require Import Lia Permutation.
From Verif Require Import Model.Base Model.PyStr Model.NDArray Model.Param Model.Config Model.Spectra Model.FitParam Model.FitConfig Model.Store.
From Verif Require Import Spec.NameSpec Spec.OldFileSpec.
From Verif Require Import Proofs.QcLemmas Proofs.StrLemmas Proofs.DictLemmas Proofs.PreConvLemmas.
Local Open Scope string_scope.
Local Open Scope list_scope.

Lemma split_key v w : occurs ":" v = false -> occurs ":" w = false -> split_char ":" (par_key v w) = ["pars"; v; w].
Proof.
  intros V W. rewrite occurs_has in V, W. unfold par_key. change ("pars:" ++ v ++ ":" ++ w)%string with ("pars" ++ String ":" (v ++ String ":" w))%string.
  rewrite !split_app, (split_none ":" v V), (split_none ":" w W). reflexivity.
Qed.
Lemma mention_form k v : mentions k v -> exists w, k = par_key v w /\ In w ["low"; "high"; "bins"].
Proof. intros [<-|[<-|[<-|[]]]]; eexists; (split; [reflexivity|cbn; auto]). Qed.
Lemma what_plain w : In w ["low"; "high"; "bins"] -> occurs ":" w = false.
Proof. intros [<-|[<-|[<-|[]]]]; reflexivity. Qed.
Lemma mention_of v w : In w ["low"; "high"; "bins"] -> mentions (par_key v w) v.
Proof. unfold mentions. intros [<-|[<-|[<-|[]]]]; cbn; auto. Qed.
Lemma mention_one k v v' : occurs ":" v = false -> occurs ":" v' = false -> mentions k v -> mentions k v' -> v = v'.
Proof.
  intros V V' M M'. apply mention_form in M as (w & -> & W). apply mention_form in M' as (w' & E & W').
  apply (f_equal (split_char ":")) in E. rewrite (split_key v w V (what_plain w W)), (split_key v' w' V' (what_plain w' W')) in E. congruence.
Qed.
Lemma key_starts v w : starts_with "pars:" (par_key v w) = true.
Proof. reflexivity. Qed.

Section File.
Context (r : root) (s : spectra) (text : string).
Hypothesis OF : old_file r s text.
Lemma plain v : In v (map fst (s_cfg s)) -> occurs ":" v = false.
Proof. intro I. destruct (of_names _ _ _ OF) as (_ & F). apply in_map_iff in I as ([v' p] & <- & I). rewrite Forall_forall in F. exact (proj1 (F _ I)). Qed.

Record pinv (seen : dict hattr) (acc : sconfig) : Prop := PInv {
  pi_nodup : NoDup (dkeys acc);
  pi_in : forall v, In v (dkeys acc) <-> In v (map fst (s_cfg s)) /\ exists k, In k (dkeys seen) /\ mentions k v;
  pi_value : forall v p q, In (v, p) (s_cfg s) -> dget v acc = Some q ->
    (In (par_key v "low") (dkeys seen) -> sp_low q = sp_low p) /\ (In (par_key v "high") (dkeys seen) -> sp_high q = sp_high p) /\
    (In (par_key v "bins") (dkeys seen) -> sp_bins q = sp_bins p);
  pi_order : first_mentioned (dkeys seen) acc }.
Lemma start_pinv : pinv [] [].
Proof.
  constructor; [constructor| | |].
  - intro v. cbn. split; [intros []|]. intros (_ & k & [] & _).
  - discriminate.
  - intros i j v w _ H. destruct i; discriminate.
Qed.
Lemma order_skip keys k c : first_mentioned keys c -> first_mentioned (keys ++ [k]) c.
Proof.
  intros H i j v w L Ei Ej. destruct (H i j v w L Ei Ej) as (n & k0 & En & M & A). assert (Ln : n < length keys) by (apply nth_error_Some; congruence).
  exists n, k0. split; [now rewrite nth_error_app1|]. split; [exact M|]. intros m k' Em M'. destruct (Nat.lt_ge_cases m (length keys)) as [X|X]; [|lia].
  rewrite nth_error_app1 in Em by exact X. exact (A m k' Em M').
Qed.
Lemma order_keys keys c c' : map fst c' = map fst c -> first_mentioned keys c -> first_mentioned keys c'.
Proof. intros E H i j v w. rewrite E. apply H. Qed.
(** [pars:...] entries *)
Lemma old_step seen acc k x rest : r_attrs r = seen ++ (k, x) :: rest -> pinv seen acc ->
  exists acc', pinv (seen ++ [(k, x)]) acc' /\ old_pars acc ((k, x) :: rest) = old_pars acc' rest.
Proof.
  intros E P. pose proof (of_keys _ _ _ OF) as ND. rewrite E in ND. unfold dkeys in ND. rewrite map_app in ND. cbn [map fst] in ND.
  assert (Ik : In k (dkeys (r_attrs r))) by (rewrite E; unfold dkeys; rewrite map_app; apply in_app_iff; right; now left).
  assert (Kn : ~ In k (dkeys seen)).
  { intro I. apply NoDup_remove_2 in ND. apply ND. apply in_app_iff. now left. }
  assert (Kd : dkeys (seen ++ [(k, x)]) = dkeys seen ++ [k]) by (unfold dkeys; now rewrite map_app).
  cbn [old_pars]. destruct (starts_with "pars:" k) eqn:S.
  - destruct (of_only _ _ _ OF k Ik S) as (v & Iv & M). pose proof (plain v Iv) as Pv. pose proof M as M0. apply mention_form in M as (w & -> & W).
    rewrite (split_key v w Pv (what_plain w W)). apply in_map_iff in Iv as ([v' p] & <- & Ip). cbn [fst] in *.
    assert (Ex : dget (par_key v' w) (r_attrs r) = Some x) by (apply In_dget; [exact (of_keys _ _ _ OF)|rewrite E; apply in_app_iff; right; now left]).
    destruct (of_axes _ _ _ OF v' p Ip) as (A1 & A2 & A3).
    set (q := match dget v' acc with Some p => p | None => SPar 1 1 1 end).
    assert (X : exists q', (do x <- match x with ANum x => Ok x | AInt z => Ok (zq z) | _ => Err EValueError end; do p' <- spar_set w x q; old_pars (dset v' p' acc) rest) = old_pars (dset v' q' acc) rest /\
      (w = "low" -> sp_low q' = sp_low p) /\ (w = "high" -> sp_high q' = sp_high p) /\ (w = "bins" -> sp_bins q' = sp_bins p) /\
      (w <> "low" -> sp_low q' = sp_low q) /\ (w <> "high" -> sp_high q' = sp_high q) /\ (w <> "bins" -> sp_bins q' = sp_bins q)).
    { destruct W as [<-|[<-|[<-|[]]]].
      - rewrite Ex in A1. injection A1 as ->. eexists. split; [reflexivity|]. cbn. repeat split; intros; congruence.
      - rewrite Ex in A2. injection A2 as ->. eexists. split; [reflexivity|]. cbn. repeat split; intros; congruence.
      - rewrite Ex in A3. injection A3 as ->. eexists. split; [reflexivity|]. cbn. rewrite qtrunc_zq. repeat split; intros; congruence. }
    destruct X as (q' & Eq & Q1 & Q2 & Q3 & Q4 & Q5 & Q6). exists (dset v' q' acc). split; [|exact Eq]. destruct P as [P1 P2 P3 P4].
    assert (Dk : dkeys (dset v' q' acc) = if str_in v' (dkeys acc) then dkeys acc else (dkeys acc ++ [v'])%list) by apply dkeys_dset.
    assert (SI : str_in v' (dkeys acc) = true <-> In v' (dkeys acc)).
    { unfold str_in. rewrite existsb_exists. split; [intros (y & I & B); apply String.eqb_eq in B; now subst|]. intro I. exists v'. split; [exact I|apply String.eqb_refl]. }
    assert (Iv : In v' (map fst (s_cfg s))) by (apply in_map_iff; now exists (v', p)).
    constructor.
    + rewrite Dk. destruct (str_in v' (dkeys acc)) eqn:B; [exact P1|]. apply NoDup_Add with (a := v') (l := dkeys acc).
      * rewrite <- (app_nil_r (dkeys acc)) at 1. apply Add_app.
      * split; [exact P1|]. intro I. apply SI in I. congruence.
    + intro u. assert (Y : In u (dkeys (dset v' q' acc)) <-> u = v' \/ In u (dkeys acc)).
      { rewrite Dk. destruct (str_in v' (dkeys acc)) eqn:B; [|rewrite in_app_iff; cbn; intuition]. split; [auto|]. intros [->|I]; [now apply SI|exact I]. }
      rewrite Y, P2, Kd. split.
      * intros [->|(I & k & Ik' & Mk)]; [split; [exact Iv|]; exists (par_key v' w); split; [apply in_app_iff; right; now left|exact M0]|].
        split; [exact I|]. exists k. split; [apply in_app_iff; now left|exact Mk].
      * intros (I & k & Ik' & Mk). apply in_app_iff in Ik' as [Ik'|[<-|[]]]; [right; eauto|]. left. exact (mention_one _ u v' (plain u I) Pv Mk M0).
    + intros u p0 q0 Iu G. rewrite Kd. destruct (String.eqb_spec u v') as [->|N].
      * rewrite dget_dset_same in G. injection G as <-.
        assert (p0 = p) as -> . { pose proof (of_names _ _ _ OF) as (NN & _). pose proof (In_dget v' p0 (s_cfg s) NN Iu). pose proof (In_dget v' p (s_cfg s) NN Ip). congruence. }
        assert (V : forall w0 : string, In w0 ["low"; "high"; "bins"] -> In (par_key v' w0) (dkeys seen ++ [par_key v' w])%list -> w0 <> w -> In (par_key v' w0) (dkeys seen) /\ exists q1, dget v' acc = Some q1 /\ q = q1).
        { intros w0 W0 I Nw. apply in_app_iff in I as [I|[I|[]]].
          - split; [exact I|]. assert (Z : In v' (dkeys acc)) by (apply P2; split; [exact Iv|]; exists (par_key v' w0); split; [exact I|now apply mention_of]).
            apply key_dget in Z as (q1 & Z). exists q1. split; [exact Z|]. unfold q. now rewrite Z.
          - apply (f_equal (split_char ":")) in I. rewrite (split_key _ _ Pv (what_plain w W)), (split_key _ _ Pv (what_plain w0 W0)) in I. congruence. }
        split; [|split].
        -- intro I. destruct (String.eqb_spec w "low") as [->|Nw]; [now apply Q1|]. rewrite (Q4 Nw). destruct (V "low") as (I' & q1 & G1 & ->); [cbn; auto|exact I|congruence|]. exact (proj1 (P3 v' p q1 Ip G1) I').
        -- intro I. destruct (String.eqb_spec w "high") as [->|Nw]; [now apply Q2|]. rewrite (Q5 Nw). destruct (V "high") as (I' & q1 & G1 & ->); [cbn; auto|exact I|congruence|]. exact (proj1 (proj2 (P3 v' p q1 Ip G1)) I').
        -- intro I. destruct (String.eqb_spec w "bins") as [->|Nw]; [now apply Q3|]. rewrite (Q6 Nw). destruct (V "bins") as (I' & q1 & G1 & ->); [cbn; auto|exact I|congruence|]. exact (proj2 (proj2 (P3 v' p q1 Ip G1)) I').
      * rewrite dget_dset_other in G by exact N. assert (Pu : occurs ":" u = false) by (apply plain; apply in_map_iff; now exists (u, p0)).
        assert (V : forall w0, In w0 ["low"; "high"; "bins"] -> In (par_key u w0) (dkeys seen ++ [par_key v' w])%list -> In (par_key u w0) (dkeys seen)).
        { intros w0 W0 I. apply in_app_iff in I as [I|[I|[]]]; [exact I|]. elim N. symmetry. apply (mention_one (par_key u w0) v' u Pv Pu); [rewrite <- I; exact M0|now apply mention_of]. }
        destruct (P3 u p0 q0 Iu G) as (B1 & B2 & B3). split; [intro I; apply B1, V; [cbn; auto|exact I]|]. split; [intro I; apply B2, V; [cbn; auto|exact I]|]. intro I; apply B3, V; [cbn; auto|exact I].
    + rewrite Kd. destruct (str_in v' (dkeys acc)) eqn:B; [apply (order_keys _ acc); [exact Dk|now apply order_skip]|].
      intros i j a b L Ei Ej. change (map fst (dset v' q' acc)) with (dkeys (dset v' q' acc)) in Ei, Ej. rewrite Dk in Ei, Ej.
      assert (Lj : j < length (dkeys acc ++ [v'])) by (apply nth_error_Some; congruence). rewrite app_length in Lj. cbn in Lj.
      rewrite nth_error_app1 in Ei by lia. destruct (Nat.lt_ge_cases j (length (dkeys acc))) as [X|X].
      * rewrite nth_error_app1 in Ej by exact X. exact (order_skip _ _ _ P4 i j a b L Ei Ej).
      * rewrite nth_error_app2 in Ej by exact X. replace (j - length (dkeys acc)) with 0 in Ej by lia. injection Ej as <-.
        assert (Ia : In a (dkeys acc)) by (eapply nth_error_In; exact Ei). apply P2 in Ia as (Ia & k & Ik' & Mk). apply In_nth_error in Ik' as (n & En).
        assert (Ln : n < length (dkeys seen)) by (apply nth_error_Some; congruence). exists n, k. split; [now rewrite nth_error_app1|]. split; [exact Mk|].
        intros m k' Em M'. destruct (Nat.lt_ge_cases m (length (dkeys seen))) as [Y|Y]; [|lia]. rewrite nth_error_app1 in Em by exact Y. exfalso.
        assert (Z : In v' (dkeys acc)) by (apply P2; split; [exact Iv|]; exists k'; split; [eapply nth_error_In; exact Em|exact M']). apply SI in Z. congruence.
  - exists acc. split; [|reflexivity]. destruct P as [P1 P2 P3 P4].
    assert (V : forall u w, In (par_key u w) (dkeys seen ++ [k])%list -> In (par_key u w) (dkeys seen)).
    { intros u w I. apply in_app_iff in I as [I|[I|[]]]; [exact I|]. rewrite I, key_starts in S. discriminate. }
    constructor; [exact P1| | |rewrite Kd; now apply order_skip].
    + intro u. rewrite P2, Kd. split; intros (I & k' & Ik' & Mk); (split; [exact I|]); exists k'; (split; [|exact Mk]).
      * apply in_app_iff. now left.
      * apply mention_form in Mk as (w & -> & _). now apply V.
    + intros u p q Iu G. rewrite Kd. destruct (P3 u p q Iu G) as (B1 & B2 & B3). split; [intro I; apply B1, V, I|]. split; [intro I; apply B2, V, I|]. intro I; apply B3, V, I.
Qed.
Lemma old_run : forall rest seen acc, r_attrs r = (seen ++ rest)%list -> pinv seen acc -> exists c, old_pars acc rest = Ok c /\ pinv (r_attrs r) c.
Proof.
  induction rest as [|[k x] rest IH]; intros seen acc E P; [exists acc; split; [reflexivity|]; rewrite app_nil_r in E; now rewrite E|].
  destruct (old_step seen acc k x rest E P) as (acc' & P' & ->). apply (IH (seen ++ [(k, x)])%list acc'); [rewrite E, <- app_assoc; reflexivity|exact P'].
Qed.
Lemma old_axes : exists c, old_pars [] (r_attrs r) = Ok c /\ Permutation c (s_cfg s) /\ first_mentioned (dkeys (r_attrs r)) c.
Proof.
  destruct (old_run (r_attrs r) [] [] eq_refl start_pinv) as (c & E & [P1 P2 P3 P4]). exists c. split; [exact E|]. split; [|exact P4].
  destruct (of_names _ _ _ OF) as (NN & FF).
  assert (K : forall v p, In (v, p) (s_cfg s) -> dget v c = Some p).
  { intros v p I. destruct (of_axes _ _ _ OF v p I) as (A1 & A2 & A3). assert (D : forall k x, dget k (r_attrs r) = Some x -> In k (dkeys (r_attrs r))).
    { intros k x G. apply dget_In in G. apply in_map_iff. now exists (k, x). }
    assert (Iv : In v (dkeys c)).
    { apply P2. split; [apply in_map_iff; now exists (v, p)|]. exists (par_key v "low"). split; [eapply D; exact A1|now left]. }
    apply key_dget in Iv as (q & G). rewrite G. f_equal. destruct (P3 v p q I G) as (B1 & B2 & B3). destruct p, q. cbn in *. f_equal; [eapply B1, D, A1|eapply B2, D, A2|eapply B3, D, A3]. }
  assert (N1 : NoDup c) by (apply (NoDup_map_inv fst); exact P1). assert (N2 : NoDup (s_cfg s)) by (apply (NoDup_map_inv fst); exact NN).
  apply NoDup_Permutation; [exact N1|exact N2|]. intros [v p]. split; intro I.
  - assert (Iv : In v (dkeys c)) by (apply in_map_iff; now exists (v, p)). apply P2 in Iv as (Iv & _). apply in_map_iff in Iv as ([v' p'] & <- & I'). cbn [fst] in *.
    pose proof (K v' p' I') as G. rewrite (In_dget v' p c P1 I) in G. injection G as ->. exact I'.
  - apply dget_In. now apply K.
Qed.
Lemma load_old_l pf e style : style_read pf text style -> exists c, load pf e (Some r) = Ok (Stored (with_axes s c) "spectral_config" None style) /\
  Permutation c (s_cfg s) /\ first_mentioned (dkeys (r_attrs r)) c.
Proof.
  intro ST. destruct old_axes as (c & E & P & F). exists c. split; [|split; [exact P|exact F]]. unfold load, load_new, get_group, dlookup. rewrite (of_group _ _ _ OF). cbn [rbind on_key_error].
  unfold load_old. rewrite E. cbn [rbind]. unfold attr_str, attr_num, attr_int, attr, dlookup. rewrite (of_name _ _ _ OF), (of_decays _ _ _ OF). cbn [rbind].
  unfold new_spectra. assert (X : forallb (fun b => (0 <=? b)%Z) (get_shape c) = true).
  { apply forallb_forall. intros b I. unfold get_shape in I. apply in_map_iff in I as ([v p] & <- & I). apply (Permutation_in _ P) in I. destruct (of_names _ _ _ OF) as (_ & FF).
    rewrite Forall_forall in FF. apply Z.leb_le. exact (proj2 (FF _ I)). }
  rewrite X. cbn [rbind]. rewrite (of_raw _ _ _ OF). cbn [rbind]. rewrite (of_style _ _ _ OF). cbn [rbind].
  replace (if String.eqb text "" then _ else _) with (Ok style : res jval).
  2:{ destruct ST as [(-> & ->)|(N & d & D & ->)]; [reflexivity|]. apply String.eqb_neq in N. rewrite N, D. reflexivity. }
  cbn [rbind]. destruct (of_rois _ _ _ OF) as (R1 & R2). rewrite R1. cbn [rbind String.eqb].
  unfold get_data, dlookup. rewrite (of_data _ _ _ OF). cbn [rbind s_name s_bg s_cfg s_decays]. unfold with_axes. rewrite R2.
  destruct (of_bipo _ _ _ OF) as [-> | (-> & B)]; cbn [rbind]; [reflexivity|]. now rewrite B.
Qed.
End File.

(** ** The order determines the list *)
Lemma before_nth {A} (l : list A) i j v w : NoDup l -> nth_error l i = Some v -> nth_error l j = Some w -> v <> w -> i < j \/ j < i.
Proof. intros N Ei Ej D. destruct (Nat.lt_trichotomy i j) as [H|[->|H]]; [auto| |auto]. congruence. Qed.
Lemma order_unique keys (c c' : sconfig) : NoDup (map fst c) -> Permutation c c' -> first_mentioned keys c -> first_mentioned keys c' -> c = c'.
Proof.
  revert c'. induction c as [|[v p] c IH]; intros c' N P F F'; [now apply Permutation_nil in P|]. destruct c' as [|[w q] c']; [apply Permutation_sym, Permutation_nil in P; discriminate|].
  assert (N' : NoDup (map fst ((w, q) :: c'))) by (eapply Permutation_NoDup; [apply Permutation_map, P|exact N]).
  assert (T : forall (l : sconfig) y, first_mentioned keys (y :: l) -> first_mentioned keys l).
  { intros l y H i j a b L Ei Ej. apply (H (S i) (S j) a b); [lia|exact Ei|exact Ej]. }
  assert (E : v = w).
  { destruct (String.eqb_spec v w) as [E|D]; [exact E|exfalso].
    assert (I1 : In (v, p) c'). { assert (I : In (v, p) ((w, q) :: c')) by (eapply Permutation_in; [exact P|now left]). destruct I as [I|I]; [congruence|exact I]. }
    assert (I2 : In (w, q) c). { assert (I : In (w, q) ((v, p) :: c)) by (eapply Permutation_in; [apply Permutation_sym, P|now left]). destruct I as [I|I]; [congruence|exact I]. }
    apply (in_map fst) in I1, I2. apply In_nth_error in I1 as (i & Ei), I2 as (j & Ej).
    destruct (F 0 (S j) v w) as (n & k & En & M & A); [lia|reflexivity|exact Ej|]. destruct (F' 0 (S i) w v) as (n' & k' & En' & M' & A'); [lia|reflexivity|exact Ei|].
    pose proof (A n' k' En' M'). pose proof (A' n k En M). lia. }
  subst w. assert (q = p) as ->.
  { assert (I : In (v, q) ((v, p) :: c)) by (eapply Permutation_in; [apply Permutation_sym, P|now left]). destruct I as [I|I]; [congruence|]. inversion N as [|? ? N1 _]; subst. elim N1. apply in_map_iff. now exists (v, q). }
  f_equal. apply IH; [now inversion N|now apply Permutation_cons_inv in P|eapply T; exact F|eapply T; exact F'].
Qed.
Lemma load_ordered_l r s text pf e style : old_file r s text -> style_read pf text style -> first_mentioned (dkeys (r_attrs r)) (s_cfg s) ->
  load pf e (Some r) = Ok (Stored (with_axes s (s_cfg s)) "spectral_config" None style).
Proof.
  intros OF ST F. destruct (load_old_l r s text OF pf e style ST) as (c & E & P & F'). rewrite E. do 3 f_equal. apply (order_unique (dkeys (r_attrs r))); [|exact P|exact F'|exact F].
  eapply Permutation_NoDup; [apply Permutation_sym, Permutation_map, P|]. exact (proj1 (of_names _ _ _ OF)).
Qed.
Lemma no_pars : forall l acc, (forall k, In k (dkeys l) -> starts_with "pars:" k = false) -> old_pars acc l = Ok acc.
Proof.
  induction l as [|[k x] l IH]; intros acc H; [reflexivity|]. cbn [old_pars]. rewrite (H k) by now left. apply IH. intros k' I. apply H. now right.
Qed.
Lemma neither_l pf e r : dget "spectrum" (r_members r) = None -> (forall k, In k (dkeys (r_attrs r)) -> starts_with "pars:" k = false) ->
  (dget "name" (r_attrs r) = None \/ dget "num_decays" (r_attrs r) = None \/ dget "raw_events" (r_attrs r) = None) ->
  (forall x, dget "name" (r_attrs r) = Some x -> exists n, x = AStr n) -> (forall x, dget "num_decays" (r_attrs r) = Some x -> exists n, x = ANum n) ->
  load pf e (Some r) = Err EKeyError.
Proof.
  intros G K M N D. unfold load, load_new, get_group, dlookup. rewrite G. cbn [rbind on_key_error]. unfold load_old. rewrite (no_pars _ [] K). cbn [rbind].
  unfold attr_str, attr_num, attr_int, attr, dlookup. destruct (dget "name" (r_attrs r)) as [x|] eqn:En; [|reflexivity]. destruct (N x eq_refl) as (n & ->). cbn [rbind].
  destruct (dget "num_decays" (r_attrs r)) as [y|] eqn:Ed; [|reflexivity]. destruct (D y eq_refl) as (m & ->). cbn [rbind]. destruct M as [M|[M|M]]; try discriminate. rewrite M. reflexivity.
Qed.

(** The parameter classes of the fit, and what the sum of the parts is in each bin. *)
From Coq Require Import Lia.
From Verif Require Import Model.Base Model.PyStr Model.NDArray Model.Param Model.Config Model.Spectra
  Model.Smear Model.Shift Model.Heap Model.FitParam Model.Minimise Model.Fit.
From Verif Require Import Spec.AxisSpec Spec.ArraySpec Spec.SpectraSpec Spec.ShrinkSpec Spec.HeapSpec Spec.SearchSpec Spec.FitRunSpec.
From Verif Require Import Proofs.QcLemmas Proofs.NDArrayLemmas Proofs.ExtLemmas Proofs.DeriveExt Proofs.MinimiseLemmas
  Proofs.SearchLemmas Proofs.FitLemmas Proofs.FitRun.

Lemma project_loop_ext axis is : forall a b, arr_eq a b -> res_eq arr_eq (project_loop axis is a) (project_loop axis is b).
Proof.
  induction is as [|i is IH]; intros a b H; [exact H|]. cbn [project_loop].
  pose proof (asum_axis_ext (if (axis <? i + 1)%nat then 1 else 0)%Z a b H) as E.
  destruct (asum_axis _ a), (asum_axis _ b); cbn in E; try contradiction; [now apply IH|exact E].
Qed.
Lemma project_ext dim s s' : same_spectra s s' -> res_eq arr_eq (project dim s) (project dim s').
Proof.
  intro H. pose proof (same_spectra_arr _ _ H) as A. meta H. unfold project. rewrite <- Hc. destruct (get_index (s_cfg s) dim); [|reflexivity].
  cbn [rbind]. now apply project_loop_ext.
Qed.
Lemma interpolate_ext spline dim s s' : same_spectra s s' -> interpolate1d spline dim s = interpolate1d spline dim s'.
Proof.
  intro H. pose proof (project_ext dim s s' H) as E. meta H. unfold interpolate1d. rewrite <- Hc.
  destruct (get_par (s_cfg s) dim) as [p|]; [|reflexivity]. cbn [rbind]. destruct (get_bin_centres p) as [x|]; [|reflexivity]. cbn [rbind].
  destruct (project dim s) as [y|], (project dim s') as [y'|]; cbn in E; try contradiction; cbn [rbind]; [|now rewrite E].
  destruct E as [E1 E2]. do 2 f_equal. rewrite <- E1. apply map_ext_in. intros i I. apply E2. rewrite c_order_all in I. now apply all_idx_valid.
Qed.
Lemma sees_shift str spline dim : sees (shift_kind str spline dim).
Proof.
  apply sees_derive. intros v s s' H. pose proof (interpolate_ext spline dim s s' H) as E. meta H. rewrite <- Hc, E. reflexivity.
Qed.
Lemma sees_scale str spline dim : sees (scale_kind str spline dim).
Proof. apply sees_derive. intros v s s' H. now rewrite (interpolate_ext spline dim s s' H). Qed.
Lemma sees_resolution n1 n2 s1 s2 w dim : sees (resolution_kind n1 n2 s1 s2 w dim).
Proof. now apply sees_derive. Qed.

(** ** The sum in each bin *)
Definition start_of (acc : option ndarray) : list ndarray := match acc with Some a => [a] | None => [] end.
Lemma sum_parts_bins l : forall acc e, sum_parts acc l = Ok (Some e) ->
  exists ar, Forall2 (fun x a => x = Ok a) l ar /\ Forall (fun a => ashape a = ashape e) (start_of acc ++ ar) /\
    forall i, aget e i = qsum (map (fun a => aget a i) (start_of acc ++ ar)).
Proof.
  induction l as [|x l IH]; intros acc e H.
  - cbn in H. injection H as ->. exists []. split; [constructor|]. cbn. split; [repeat constructor|]. intro i. ring.
  - rewrite sum_parts_cons in H. destruct x as [a|]; [|discriminate]. cbn [rbind] in H.
    destruct (add_to acc a) as [b|] eqn:E; [|discriminate]. cbn [rbind] in H. destruct (IH _ _ H) as (ar & F & S & V).
    exists (a :: ar). split; [now constructor|]. cbn in S, V. inversion S as [|x y Sb Sr]; subst.
    destruct acc as [c|]; cbn in E |- *.
    + destruct (list_eq_dec Nat.eq_dec (ashape c) (ashape a)) as [K|]; [|discriminate]. injection E as <-. cbn in Sb.
      split; [repeat constructor; try congruence; exact Sr|]. intro i. rewrite V. cbn. ring.
    + injection E as ->. split; [now constructor|]. exact V.
Qed.
Lemma Forall2_split {A B} (R : A -> B -> Prop) l m n : Forall2 R (l ++ m) n -> exists n1 n2, n = n1 ++ n2 /\ Forall2 R l n1 /\ Forall2 R m n2.
Proof.
  revert n. induction l as [|x l IH]; intros n F; [exists [], n; auto|]. cbn in F. inversion F as [|a b c e H F']; subst.
  destruct (IH _ F') as (n1 & n2 & -> & F1 & F2). exists (b :: n1), n2. split; [reflexivity|]. auto.
Qed.
Lemma expected_bins ft h args sig e : expected ft h args sig = Ok e ->
  exists fx fl sg,
    match ft_fixed ft with Some (r, pars) => exists a, (do s <- shown h r; nd_project pars s) = Ok a /\ fx = [a] | None => fx = [] end /\
    Forall2 (fun p a => floating_contribution ft h args p = Ok a) (ft_floating ft) fl /\
    match ft_signal ft with Some p => exists a, sig p = Ok a /\ sg = [a] | None => sg = [] end /\
    Forall (fun a => ashape a = ashape e) (fx ++ fl ++ sg) /\
    forall i, aget e i = qsum (map (fun a => aget a i) (fx ++ fl ++ sg)).
Proof.
  unfold expected. set (f := match ft_fixed ft with None => _ | Some (r, pars) => _ end). intro H.
  destruct f as [acc|] eqn:Ef; [|discriminate]. cbn [rbind] in H.
  destruct (sum_parts acc _) as [[e'|]|] eqn:Es; cbn [rbind] in H; try discriminate. injection H as ->.
  destruct (sum_parts_bins _ _ _ Es) as (ar & F & S & V). apply Forall2_split in F as (fl & sg & -> & F1 & F2).
  exists (start_of acc), fl, sg. split; [|split; [|split; [|split]]].
  - unfold f in Ef. destruct (ft_fixed ft) as [[r pars]|]; [|injection Ef as <-; reflexivity]. destruct (shown h r) as [s|]; [|discriminate]. cbn [rbind] in *.
    destruct (nd_project pars s) as [a|]; [|discriminate]. injection Ef as <-. exists a. auto.
  - clear - F1. revert fl F1. induction (ft_floating ft) as [|p l IH]; intros fl F; inversion F; subst; constructor; auto.
  - destruct (ft_signal ft) as [p|]; [|now inversion F2]. inversion F2 as [|x y l m E F3]; subst. inversion F3; subst. exists y. auto.
  - exact S.
  - exact V.
Qed.

(** ** The grid search on the fit *)
Lemma fit_search ft h V stat pen pb sb g pf pars spec name un ls rs :
  prepared ft h -> distinct_printing ft V -> grid_of g pars ls -> Forall (good_args ft V) (combinations ls) ->
  Forall2 (fun v r => value_of ft h stat pen pb sb v (fitted_last ft h v) = Ok r) (combinations ls) rs ->
  Forall (fun rp => fits pb spec (fst rp)) rs -> Forall (fun l => l <> []) ls -> (un = true \/ ls <> []) -> penalties_defined pf pars ->
  exists st' s p k vals rp,
    minimise g (objective ft stat pen pb sb) pf (SS (f_start ft h) (new_search pars spec name pb un)) = (st', Ok (s, p)) /\
    nth_error (combinations ls) k = Some vals /\ nth_error rs k = Some rp /\
    map fp_best (gs_pars (ss_gs st')) = map Some vals /\
    (forall j, valid_idx (ashape s) j -> aget s j = content (fst rp) j) /\ aget p [] = snd rp /\
    (forall k' rp', nth_error rs k' = Some rp' ->
       (answer_total pb spec (fst rp) + snd rp <= answer_total pb spec (fst rp') + snd rp')%Qc /\
       ((k' < k)%nat -> (answer_total pb spec (fst rp) + snd rp < answer_total pb spec (fst rp') + snd rp')%Qc)) /\
    (forall k i v r q, nth_error (all_idx (map (@length Qc) ls)) k = Some i -> nth_error (combinations ls) k = Some v -> nth_error rs k = Some (r, q) ->
       reads (ss_gs st') i r q).
Proof.
  intros P D G GA F FT NE UN PD. destruct (search_calls_l ft h V stat pen pb sb (combinations ls) rs P D GA F) as (o & C).
  pose proof (minimise_l g (objective ft stat pen pb sb) pf (SS (f_start ft h) (new_search pars spec name pb un)) ls o rs) as M. cbn zeta in M.
  destruct M as (g1 & k & vals & r & q & s & p & H1 & H2 & H3 & H4 & H5 & H6 & H7 & [H8 H9] & [H10 H11] & H12 & _).
  - exact G.
  - now apply new_ready_l with g.
  - exact FT.
  - exact C.
  - exact NE.
  - exact UN.
  - exact PD.
  - exists (SS o g1), s, p, k, vals, (r, q). split; [exact H1|]. split; [exact H4|]. split; [exact H5|]. split; [exact H6|].
    split; [exact H9|]. split; [exact H11|]. split; [intros k' [r' q'] H; exact (H12 k' r' q' H)|].
    intros k0 i v r0 q0 K1 _ K3. exact (H3 k0 i r0 q0 K1 K3).
Qed.

(** ** For the examples *)
Fixpoint has_char (c : Ascii.ascii) (s : string) : bool :=
  match s with EmptyString => false | String a s' => (if Ascii.ascii_dec a c then true else false) || has_char c s' end.
Lemma has_char_app c a b : has_char c (a ++ String c b) = true.
Proof. induction a as [|x a IH]; cbn; [|rewrite IH; apply orb_true_r]. now destruct (Ascii.ascii_dec c c). Qed.
Lemma no_underscore s a b : has_char "_" s = false -> s <> (a ++ "_" ++ b)%string.
Proof. intros H ->. cbn in H. now rewrite has_char_app in H. Qed.

(** Lemmas for C81. *)
From Coq Require Import Reals Lra Lia.
From Verif Require Import Model.Base Model.NDArray Model.PlotGrab Spec.PlotGrabSpec.
Local Open Scope R_scope.

Lemma ln10 : 0 < ln 10.
Proof. rewrite <- ln_1. apply ln_increasing; lra. Qed.
Lemma given_some e : e <> 0 -> given (Some e) = Some e.
Proof. intro N. unfold given. destruct (Req_EM_T e 0); [contradiction|reflexivity]. Qed.
Lemma given_none o : no_err o -> given o = None.
Proof. intros [->| ->]; unfold given; [reflexivity|]. destruct (Req_EM_T 0 0); [reflexivity|lra]. Qed.
Lemma shifted_lin e f x : e <> 0 -> shifted (EArgs (Some e) f false false) (Fin x) = Ok (Fin (x + e)).
Proof. intro N. unfold shifted. cbn [ea_lin ea_frac ea_log ea_log10]. now rewrite given_some. Qed.
Lemma shifted_log e f b x : e <> 0 -> 0 <= x -> shifted (EArgs (Some e) f true b) (Fin x) = Ok (Fin (x * exp e)).
Proof.
  intros N P. unfold shifted. cbn [ea_lin ea_frac ea_log ea_log10]. rewrite given_some by exact N. cbn [rbind np_ln]. destruct (Rlt_dec 0 x) as [L|L].
  - cbn [x_plus np_exp]. rewrite exp_plus, exp_ln by exact L. reflexivity.
  - assert (x = 0) as -> by lra. destruct (Req_EM_T 0 0); [|lra]. cbn. do 2 f_equal. lra.
Qed.
Lemma shifted_log10 e f x : e <> 0 -> 0 <= x -> shifted (EArgs (Some e) f false true) (Fin x) = Ok (Fin (x * Rpower 10 e)).
Proof.
  intros N P. unfold shifted. cbn [ea_lin ea_frac ea_log ea_log10]. rewrite given_some by exact N. unfold np_log10. cbn [rbind np_ln]. destruct (Rlt_dec 0 x) as [L|L].
  - cbn [x_plus np_pow10]. do 2 f_equal. pose proof ln10. replace ((ln x / ln 10 + e) * ln 10) with (ln x + e * ln 10) by (field; lra).
    rewrite exp_plus, exp_ln by exact L. reflexivity.
  - assert (x = 0) as -> by lra. destruct (Req_EM_T 0 0); [|lra]. cbn. do 2 f_equal. lra.
Qed.
Lemma errors_l a g sh l : (forall x, In x l -> shifted a (Fin x) = Ok (Fin (g x))) ->
  get_array_errors a (numbers sh l) = Ok (numbers [length l] (map (fun x => g x - x) l)).
Proof.
  intro H. unfold get_array_errors, numbers. cbn [x_flat].
  assert (E : rmapM (shifted a) (map Fin l) = Ok (map (fun x => Fin (g x)) l)).
  { induction l as [|x l IH]; [reflexivity|]. cbn [map rmapM]. rewrite (H x) by now left. cbn [rbind]. rewrite IH by (intros; apply H; now right). reflexivity. }
  rewrite E. cbn [rbind]. rewrite map_length. do 2 f_equal. rewrite map_map. clear. induction l as [|x l IH]; [reflexivity|]. cbn. now rewrite IH.
Qed.
Lemma nth_numbers l i d : (i < length l)%nat -> nth i (map Fin l) NaN = Fin (nth i l d).
Proof. intro H. rewrite (nth_indep _ NaN (Fin d)) by now rewrite map_length. now rewrite map_nth. Qed.
Lemma map_seq_nth {A} (f : nat -> A) l n d : (forall i, (i < n)%nat -> f i = nth i l d) -> length l = n -> map f (seq 0 n) = l.
Proof.
  intros H L. apply (nth_ext _ _ (f 0%nat) d); [now rewrite map_length, seq_length|]. intros i Hi. rewrite map_length, seq_length in Hi.
  rewrite map_nth, seq_nth by exact Hi. now apply H.
Qed.
Lemma add_flat a g sh d l : (forall x, In x l -> shifted a (Fin x) = Ok (Fin (g x))) -> length l = asize (sh ++ [d]) -> d = length l ->
  add_errors a (numbers (sh ++ [d]) l) = Ok (numbers (sh ++ [d]) (map g l)).
Proof.
  intros H L D. unfold add_errors. rewrite (errors_l a g _ _ H). cbn [rbind]. unfold broadcast, numbers. cbn [x_shape x_flat]. rewrite rev_app_distr, map_length. cbn [rev app].
  rewrite D, Nat.eqb_refl, <- D, <- L. do 2 f_equal. apply (map_seq_nth _ _ _ NaN); [|now rewrite !map_length].
  intros i Hi. rewrite Nat.mod_small by lia. rewrite (nth_numbers l i 0) by exact Hi.
  rewrite (nth_numbers _ i 0) by now rewrite map_length. rewrite (nth_numbers _ i 0) by now rewrite map_length. cbn [x_add].
  rewrite (nth_indep (map g l) 0 (g 0)) by now rewrite map_length. rewrite map_nth. f_equal.
  assert (E : nth i (map (fun x => g x - x) l) 0 = g (nth i l 0) - nth i l 0).
  { rewrite (nth_indep _ 0 ((fun x => g x - x) 0)) by now rewrite map_length. exact (map_nth (fun x => g x - x) l 0 i). }
  rewrite E. ring.
Qed.
Lemma add_flat1 a g l : (forall x, In x l -> shifted a (Fin x) = Ok (Fin (g x))) ->
  add_errors a (numbers [length l] l) = Ok (numbers [length l] (map g l)).
Proof. intro H. apply (add_flat a g [] (length l) l H); [cbn; lia|reflexivity]. Qed.
Lemma add_column a g sh l : (forall x, In x l -> shifted a (Fin x) = Ok (Fin (g x))) -> (1 < length l)%nat ->
  exists l', add_errors a (numbers (sh ++ [1%nat]) l) = Ok (XA (sh ++ [length l]) l') /\ length l' = (length l * length l)%nat.
Proof.
  intros H L. unfold add_errors. rewrite (errors_l a g _ _ H). cbn [rbind]. unfold broadcast, numbers. cbn [x_shape x_flat]. rewrite rev_app_distr, map_length. cbn [rev app].
  destruct (1 =? length l)%nat eqn:E; [apply Nat.eqb_eq in E; lia|]. destruct (length l =? 1)%nat eqn:E2; [apply Nat.eqb_eq in E2; lia|]. rewrite Nat.eqb_refl.
  eexists. split; [rewrite rev_involutive; reflexivity|]. 
  assert (G : forall (f : xr -> list xr) n (m : list xr), (forall x, length (f x) = n) -> length (flat_map f m) = (length m * n)%nat).
  { intros f n m F. induction m as [|x m IH]; [reflexivity|]. cbn. now rewrite app_length, F, IH. }
  rewrite (G _ (length l)); rewrite ?map_length; [reflexivity|]. intro x. now rewrite !map_length.
Qed.
Lemma add_raises a g sh d l : (forall x, In x l -> shifted a (Fin x) = Ok (Fin (g x))) -> d <> length l -> d <> 1%nat -> length l <> 1%nat ->
  add_errors a (numbers (sh ++ [d]) l) = Err EValueError.
Proof.
  intros H N1 N2 N3. unfold add_errors. rewrite (errors_l a g _ _ H). cbn [rbind]. unfold broadcast, numbers. cbn [x_shape x_flat]. rewrite rev_app_distr, map_length. cbn [rev app].
  apply Nat.eqb_neq in N1, N2, N3. now rewrite N1, N2, N3.
Qed.
Lemma grab_pos : 0 < plot_grab_err.
Proof. unfold plot_grab_err. apply sqrt_lt_R0. lra. Qed.
Lemma grab_factor s l : s <> 0 -> Forall (fun x => 0 <= x) l -> add_errors (EArgs (Some s) None false true) (numbers [length l] l)
  = Ok (numbers [length l] (map (fun x => x * Rpower 10 s) l)).
Proof. intros N P. apply (add_flat1 _ (fun x => x * Rpower 10 s)). intros x I. rewrite Forall_forall in P. apply shifted_log10; auto. Qed.
Lemma scaled_nonneg s l : Forall (fun x => 0 <= x) l -> Forall (fun x => 0 <= x) (map (fun x => x * Rpower 10 s) l).
Proof.
  intro P. apply Forall_map. eapply Forall_impl; [|exact P]. cbn. intros x Hx. apply Rmult_le_pos; [exact Hx|]. unfold Rpower. left. apply exp_pos.
Qed.
Lemma total_scaled k l : total (map (fun x => x * k) l) = total l * k.
Proof. unfold total. induction l as [|x l IH]; cbn; [lra|]. rewrite IH. lra. Qed.

(** C81: errors of arrays and their use on spectra read off a plot.  Missing for the full statement:
    spectra of several dimensions, a fraction given alone and the direction of the bounds, all refuted
    below. *)
From Coq Require Import Reals Lra Lia.
From Verif Require Import Model.Base Model.NDArray Model.PlotGrab Spec.PlotGrabSpec Proofs.PlotGrabLemmas.
Local Open Scope R_scope.

(** The error of every entry, in order: the number given, or a fixed factor if it is meant on a
    logarithmic scale; empty bins have error 0 there. *)
Theorem C81_errors_partial : forall sh l e frac, e <> 0 ->
  get_array_errors (EArgs (Some e) frac false false) (numbers sh l) = Ok (numbers [length l] (map (err_lin e) l)) /\
  (Forall (fun x => 0 <= x) l ->
    (forall b, get_array_errors (EArgs (Some e) frac true b) (numbers sh l) = Ok (numbers [length l] (map (err_log e) l))) /\
    get_array_errors (EArgs (Some e) frac false true) (numbers sh l) = Ok (numbers [length l] (map (err_log10 e) l))).
Proof.
  intros sh l e frac N. split.
  - rewrite (errors_l _ (fun x => x + e)) by (intros; now apply shifted_lin). do 2 f_equal. apply map_ext. intro x. unfold err_lin. ring.
  - intro P. rewrite Forall_forall in P. split; [intro b|].
    + now rewrite (errors_l _ (fun x => x * exp e)) by (intros; apply shifted_log; auto).
    + now rewrite (errors_l _ (fun x => x * Rpower 10 e)) by (intros; apply shifted_log10; auto).
Qed.
(** Without an error to apply it raises, unless the array is empty. *)
Theorem C81_no_error : forall sh l lin frac b1 b2, no_err lin -> no_err frac ->
  get_array_errors (EArgs lin frac b1 b2) (numbers sh l) = match l with [] => Ok (numbers [0%nat] []) | _ => Err EValueError end.
Proof.
  intros sh l lin frac b1 b2 A B. unfold get_array_errors, numbers. cbn [x_flat]. destruct l as [|x l]; [reflexivity|]. cbn [map rmapM].
  unfold shifted. cbn [ea_lin ea_frac]. rewrite !given_none by assumption. reflexivity.
Qed.
(** A fraction is ignored unless the linear error, 0.01 by default, is set to 0 or None. *)
Theorem C81_fraction_refuted : forall arr f b1 b2,
  get_array_errors (EArgs (Some (1 / 100)) (Some f) b1 b2) arr = get_array_errors (EArgs (Some (1 / 100)) None b1 b2) arr.
Proof.
  intros arr f b1 b2. unfold get_array_errors. assert (E : forall v, shifted (EArgs (Some (1 / 100)) (Some f) b1 b2) v = shifted (EArgs (Some (1 / 100)) None b1 b2) v).
  { intro v. unfold shifted. cbn [ea_lin ea_frac ea_log ea_log10]. rewrite given_some by lra. reflexivity. }
  assert (M : rmapM (shifted (EArgs (Some (1 / 100)) (Some f) b1 b2)) (x_flat arr) = rmapM (shifted (EArgs (Some (1 / 100)) None b1 b2)) (x_flat arr)).
  { generalize (x_flat arr). intro l. induction l as [|x l IH]; [reflexivity|]. cbn [rmapM]. now rewrite E, IH. }
  now rewrite M.
Qed.
(** The error of reading a plot is three times the square of 4 times 0.005, under a root: 0.0346, 8.3 percent. *)
Theorem C81_size : plot_grab_err = 2 / 100 * sqrt 3 /\ 346 / 10000 < plot_grab_err < 347 / 10000.
Proof.
  assert (E : plot_grab_err = 2 / 100 * sqrt 3).
  { unfold plot_grab_err. replace (3 * (4 * (5 / 1000)) ^ 2) with ((2 / 100) * (2 / 100) * 3) by field. rewrite sqrt_mult by lra. rewrite sqrt_square by lra. reflexivity. }
  split; [exact E|]. rewrite E. pose proof (sqrt_sqrt 3 ltac:(lra)) as Q. pose proof (sqrt_pos 3) as P. nra.
Qed.
(** Spectra of one dimension: every bin, and so the total, is multiplied by the same power of ten, and
    the signal goes the other way; both bounds together change nothing. *)
Theorem C81_bounds_partial : forall l, Forall (fun x => 0 <= x) l ->
  let n := [length l] in let up := Rpower 10 plot_grab_err in let down := Rpower 10 (- plot_grab_err) in
  grab true false (numbers n l) = Ok (numbers n (map (fun x => x * down) l)) /\
  grab false true (numbers n l) = Ok (numbers n (map (fun x => x * up) l)) /\
  grab_signal true false (numbers n l) = Ok (numbers n (map (fun x => x * up) l)) /\
  grab_signal false true (numbers n l) = Ok (numbers n (map (fun x => x * down) l)) /\
  grab true true (numbers n l) = Ok (numbers n l) /\ grab false false (numbers n l) = Ok (numbers n l) /\
  (forall k, total (map (fun x => x * k) l) = total l * k) /\ 0 < down < 1 /\ 1 < up /\ up * down = 1.
Proof.
  intros l P. cbv zeta. pose proof grab_pos as G. pose proof ln10 as L.
  assert (U : Rpower 10 plot_grab_err * Rpower 10 (- plot_grab_err) = 1) by (rewrite <- Rpower_plus, Rplus_opp_r; apply Rpower_O; lra).
  assert (U1 : 1 < Rpower 10 plot_grab_err) by (unfold Rpower; rewrite <- exp_0; apply exp_increasing; nra).
  assert (N1 : plot_grab_err <> 0) by lra. assert (N2 : - plot_grab_err <> 0) by lra.
  unfold grab, grab_signal. cbn [rbind]. rewrite !(grab_factor _ _ N1 P), !(grab_factor _ _ N2 P). cbn [rbind]. rewrite ?(grab_factor _ _ N1 P), ?(grab_factor _ _ N2 P).
  repeat (split; [reflexivity|]). split; [|split; [reflexivity|]].
  - pose proof (grab_factor _ _ N1 (scaled_nonneg (- plot_grab_err) l P)) as X. rewrite map_length in X. rewrite X, map_map. do 2 f_equal.
    rewrite <- (map_id l) at 2. apply map_ext. intro x. rewrite Rmult_assoc, (Rmult_comm (Rpower 10 (- _))), U. ring.
  - split; [intro k; apply total_scaled|]. split; [|split; [exact U1|exact U]]. unfold Rpower. split; [apply exp_pos|]. rewrite <- exp_0. apply exp_increasing. nra.
Qed.
(** With two or more dimensions of several bins it raises; if the last one has a single bin the result
    has too many bins. *)
Theorem C81_dims_refuted : forall sh d l lower, Forall (fun x => 0 <= x) l -> length l = asize (sh ++ [d]) -> (1 < asize sh)%nat ->
  ((1 < d)%nat -> grab (negb lower) lower (numbers (sh ++ [d]) l) = Err EValueError) /\
  (d = 1%nat -> exists l', grab (negb lower) lower (numbers (sh ++ [d]) l) = Ok (XA (sh ++ [length l]) l') /\ length l' = (length l * length l)%nat /\
     (length l < length l')%nat).
Proof.
  intros sh d l lower P L A. pose proof grab_pos as G.
  assert (AS : forall s x, asize (s ++ [x]) = (asize s * x)%nat). { intros s x. induction s as [|y s IH]; [cbn; lia|]. change (y * asize (s ++ [x]) = y * asize s * x)%nat. rewrite IH. ring. }
  rewrite AS in L.
  assert (H : forall s, s <> 0 -> forall x, In x l -> shifted (EArgs (Some s) None false true) (Fin x) = Ok (Fin ((fun x => x * Rpower 10 s) x))).
  { intros s N x I. rewrite Forall_forall in P. apply shifted_log10; auto. }
  assert (N1 : plot_grab_err <> 0) by lra. assert (N2 : - plot_grab_err <> 0) by lra.
  split; intro D.
  - assert (d <> length l) by nia. assert (length l <> 1%nat) by nia.
    destruct lower; cbn [negb]; unfold grab; cbn [rbind].
    + apply (add_raises _ _ sh d l (H _ N1)); lia.
    + rewrite (add_raises _ _ sh d l (H _ N2)) by lia. reflexivity.
  - subst d. assert (1 < length l)%nat by lia.
    destruct lower; cbn [negb]; unfold grab; cbn [rbind].
    + destruct (add_column _ _ sh l (H _ N1)) as (l' & E & E2); [lia|]. exists l'. rewrite E. split; [reflexivity|]. split; [exact E2|nia].
    + destruct (add_column _ _ sh l (H _ N2)) as (l' & E & E2); [lia|]. rewrite E. exists l'. split; [reflexivity|]. split; [exact E2|nia].
Qed.
(** The comment in the script says that for the lower bound the backgrounds go down and the signal up;
    they go the other way. *)
Theorem C81_direction_refuted : forall l, Forall (fun x => 0 <= x) l -> 0 < total l ->
  exists lb ls, grab false true (numbers [length l] l) = Ok (numbers [length l] lb) /\ grab_signal false true (numbers [length l] l) = Ok (numbers [length l] ls) /\
    total l < total lb /\ total ls < total l.
Proof.
  intros l P T. destruct (C81_bounds_partial l P) as (_ & E1 & _ & E2 & _ & _ & K & [D0 D1] & U & _). do 2 eexists. split; [exact E1|]. split; [exact E2|].
  rewrite !K. split; nra.
Qed.

(** Three bins, one empty. *)
Example C81_ex : Forall (fun x => 0 <= x) [10; 0; 1 / 2] /\ 0 < total [10; 0; 1 / 2] /\ 1 / 100 <> 0 /\
  map (err_lin (1 / 100)) [10; 0; 1 / 2] = [1 / 100; 1 / 100; 1 / 100] /\ err_log10 1 0 = 0 /\ err_log10 1 5 = 45 /\
  length [1; 2; 3; 4; 5; 6] = asize ([3%nat] ++ [2%nat]) /\ (1 < asize [3])%nat.
Proof.
  split; [repeat constructor; lra|]. split; [cbn; lra|]. split; [lra|]. split; [reflexivity|]. split; [unfold err_log10; lra|]. split.
  - unfold err_log10. rewrite Rpower_1; lra.
  - split; [reflexivity|cbn; lia].
Qed.

Print Assumptions C81_errors_partial.
Print Assumptions C81_no_error.
Print Assumptions C81_fraction_refuted.
Print Assumptions C81_bounds_partial.
Print Assumptions C81_dims_refuted.
Print Assumptions C81_direction_refuted.
Print Assumptions C81_size.

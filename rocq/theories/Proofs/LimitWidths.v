(** get_limit when a fit parameter has no prior width. *)
From Coq Require Import Lia.
From Verif Require Import Model.Base Model.PyStr Model.NDArray Model.FitParam Model.Minimise Model.Limit.
From Verif Require Import Spec.ArraySpec Spec.LimitSpec.
From Verif Require Import Proofs.QcLemmas Proofs.NDArrayLemmas Proofs.MinimiseLemmas Proofs.SearchLemmas Proofs.LimitLemmas.

Section W.
Context {St : Type}.
Variable fit : St -> option Qc -> St * res fitout.

Lemma find_limit_no_width scales sigmas n stats rows fs m lim :
  holds n stats rows fs -> length fs = n -> 0 < n -> length scales = n -> In None sigmas ->
  find_limit scales sigmas stats rows (as_array (RNum m)) lim = Err ETypeError.
Proof.
  intros (S & R & _ & D & _) LF P LS SG. rewrite LF in D. unfold find_limit.
  assert (B : exists d, badd stats (amap Qcopp (as_array (RNum m))) = Ok d /\ ashape d = [n]).
  { unfold badd, bc_shape. rewrite S. cbn. eexists. split; reflexivity. }
  destruct B as (d & B1 & B2). rewrite B1. cbn [rbind]. rewrite B2, c_order_one, map_map.
  set (v := fun j => aget d [j]).
  destruct (argmin_list_spec (map v (seq 0 n))) as (b & A1 & A2 & _).
  { destruct n; [lia|discriminate]. }
  rewrite A1. cbn [rbind]. rewrite map_length, seq_length in A2.
  unfold get_full_stats. rewrite B2. cbn [hd]. rewrite R, Nat.leb_refl. cbn [rbind].
  set (full := ND [n] (fun idx => full_row d rows (hd 0 idx))).
  assert (LG : forall i, i < n -> log_params sigmas rows i = Err ETypeError).
  { intros i Hi. unfold log_params. destruct sigmas as [|s0 sg]; [destruct SG|]. rewrite R.
    assert (X : n <=? i = false) by (apply Nat.leb_gt; lia). rewrite X.
    destruct (forallb (fun s => match s with Some _ => true | None => false end) (s0 :: sg)) eqn:Y; [|reflexivity].
    rewrite forallb_forall in Y. specialize (Y None SG). discriminate. }
  assert (NL : no_limit scales sigmas full rows b = Err ETypeError).
  { unfold no_limit, rows_from. cbn [full ashape hd tl]. fold full.
    assert (FM : forall l, flat_map (fun i => map (fun j => aget full (i :: j)) (c_order [])) l = map (fun i => aget full [i]) l).
    { induction l as [|x l IH]; [reflexivity|]. cbn [flat_map map]. rewrite IH. rewrite c_order_all. reflexivity. }
    change (fun idx => full_row d rows (hd 0 idx)) with (aget full).
    rewrite FM, map_map.
    destruct (argmin_list_spec (map (fun x => - aget full [x]) (seq b (n - b)))%Qc) as (k & K1 & K2 & _).
    { destruct (n - b) eqn:E; [lia|discriminate]. }
    rewrite map_length, seq_length in K2. rewrite K1. cbn [rbind]. rewrite LS.
    assert (X : b + k <? n = true) by (apply Nat.ltb_lt; lia). rewrite X. cbn [rbind]. rewrite LG by lia. reflexivity. }
  unfold rows_from. cbn [full ashape hd]. fold full.
  assert (FR := first_row_spec (row_above full lim) b (n - b) b eq_refl).
  destruct (first_row (row_above full lim) (seq b (n - b))) as [r|].
  - destruct FR as (F1 & _ & _). rewrite LS. assert (X : r <? n = true) by (apply Nat.ltb_lt; lia). rewrite X.
    rewrite LG by lia. reflexivity.
  - exact NL.
Qed.

Lemma get_limit_no_width scales sigmas st lim ms st1 m st2 fs :
  scales <> [] -> In None sigmas ->
  match ms with
  | Some x => x <> 0%Qc /\ st1 = st /\ m = x
  | None => exists f, fit st None = (st1, Ok f) /\ fo_stat f = RNum m
  end ->
  fits_made fit st1 scales st2 fs -> Forall number fs ->
  get_limit fit scales (length scales) [length scales] sigmas st lim ms = (st2, Err ETypeError).
Proof.
  intros NE SG M F N. set (n := length scales).
  assert (LF : length fs = n).
  { unfold n. clear - F. revert fs st1 F. induction scales as [|x l IH]; intros [|f fs] st1 F; cbn in *; try contradiction; [reflexivity|].
    destruct F as (s & _ & F). now rewrite (IH _ _ F). }
  assert (P : 0 < n) by (unfold n; destruct scales; [congruence|cbn; lia]).
  destruct (all_scales_ok fit n scales fs st1 st2 _ _ [] (holds_init n (length sigmas))) as (a & r & E & H).
  { cbn. fold n. lia. } { exact N. } { exact F. }
  cbn [length app] in E, H. unfold get_limit.
  assert (X : (let given := match ms with Some m0 => negb (qeq m0 0) | None => false end in
     if given then (st, Ok (RNum match ms with Some m0 => m0 | None => 0%Qc end))
     else let '(st', r0) := fit st None in (st', rmap fo_stat r0)) = (st1, Ok (RNum m))).
  { cbv zeta. destruct ms as [x|].
    - destruct M as (M1 & -> & ->). destruct (qeq x 0) eqn:Q; [apply qeq_iff in Q; contradiction|reflexivity].
    - destruct M as (f & M1 & M2). rewrite M1. cbn. now rewrite M2. }
  cbv zeta in X. rewrite X. cbn [stats_shape]. rewrite E.
  now rewrite (find_limit_no_width scales sigmas n a r fs m lim H LF P eq_refl SG).
Qed.
End W.

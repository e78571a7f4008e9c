(** What the results of a limit calculation hold, independent of the arrays they are kept in. *)
From Verif Require Import Model.Base Model.PyStr Model.NDArray Model.Param Model.FitParam Model.FitConfig Model.Store Model.Plot Model.Results.

(** The arrays have a row for each of the [n] scalings and a column for each parameter. *)
Definition shaped (r : lresults) (n : nat) : Prop :=
  NoDup (gc_get_pars (lr_fit r)) /\ ashape (lr_stats r) = [n] /\
  ashape (lr_pen r) = [n; length (gc_get_pars (lr_fit r))] /\ ashape (lr_best r) = [n; length (gc_get_pars (lr_fit r))].

(** The index [z], possibly negative, means position [i] of [n]. *)
Definition refers (n : nat) (z : Z) (i : nat) : bool :=
  (0 <=? z)%Z && (z =? Z.of_nat i)%Z || (z <? 0)%Z && (z + Z.of_nat n =? Z.of_nat i)%Z.

(** Best fits [B], penalty terms [P] and statistics [S] are what every way of reading gives. *)
Definition keeps (r : lresults) (n : nat) (B P : nat -> string -> Qc) (S : nat -> Qc) : Prop :=
  let pars := gc_get_pars (lr_fit r) in
  let full i := (S i + qsum (map (P i) pars))%Qc in
  (forall z i par, refers n z i = true -> i < n -> In par pars ->
     lr_get_best_fit r z par = Ok (B i par) /\ lr_get_penalty_term r z par = Ok (P i par)) /\
  (forall par, In par pars ->
     lr_get_best_fits r par = Ok (map (fun i => B i par) (seq 0 n)) /\
     lr_get_penalty_terms r par = Ok (map (fun i => P i par) (seq 0 n))) /\
  (forall z i, refers n z i = true -> i < n ->
     lr_get_penalty_terms_at_scale r z = Ok (map (P i) pars) /\ lr_get_full_stat r z = Ok (full i)) /\
  lr_get_stats r = Ok (map S (seq 0 n)) /\
  lr_get_full_stats r = Ok (map full (seq 0 n)).

(** The value a history of calls left: the last one, or the one at the start. *)
Fixpoint latest (f : lop -> option Qc) (ops : list lop) (start : Qc) : Qc :=
  match ops with
  | [] => start
  | o :: ops' => latest f ops' (match f o with Some v => v | None => start end)
  end.
Definition best_set (n i : nat) (par : string) (o : lop) : option Qc :=
  match o with SetBest z v p => if refers n z i && (p =? par)%string then Some v else None | _ => None end.
Definition penalty_set (n i : nat) (par : string) (o : lop) : option Qc :=
  match o with SetPenalty z v p => if refers n z i && (p =? par)%string then Some v else None | _ => None end.
Definition stat_set (n i : nat) (o : lop) : option Qc :=
  match o with SetStat z v => if refers n z i then Some v else None | _ => None end.
(** Calls with an existing scaling and parameter. *)
Definition proper (pars : list string) (n : nat) (o : lop) : Prop :=
  match o with
  | SetBest z _ p | SetPenalty z _ p => In p pars /\ exists i, i < n /\ refers n z i = true
  | SetStat z _ => exists i, i < n /\ refers n z i = true
  end.
(** Apply a history of calls; a call that raises changes nothing. *)
Definition after (ops : list lop) (r : lresults) : lresults := fold_left (fun r o => fst (lr_set r o)) ops r.

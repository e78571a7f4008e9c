(** Vocabulary for interrupted saves. *)
From Verif Require Import Model.Base Model.PyStr Model.NDArray Model.Param Model.Config Model.Spectra.
From Verif Require Import Model.FitParam Model.FitConfig Model.Minimise Model.ConfigFile Model.Store Model.Crash.
From Verif Require Import Spec.StoreSpec.
Local Open Scope string_scope.

(** [ws] is what the call writes into its group, in order, when nothing stops it. *)
Definition written (c : call) (ws : list write) : Prop :=
  match c with
  | Dump s _ _ => exists bg, snd (get_background_name (st_spec s)) = Ok bg /\
                             ws = spectrum_writes (with_spec s (fst (get_background_name (st_spec s)))) bg
  | DumpFit fr _ => exists name dg ds, gs_name (fr_search fr) = Some name /\ gc_dump false (fr_fit fr) = Ok (dg, ds) /\ ws = fit_writes name fr dg ds
  | DumpLimit dec lr _ => exists dg ds, gc_dump false (lr_fit lr) = Ok (dg, ds) /\ ws = limit_writes dec lr dg ds
  | DumpObject _ => False
  end.
(** The file when the call has been stopped after [n] of its steps: opening the file, removing the old
    group, making the new one, and the writes. *)
Definition stopped (n : nat) (f : hfile) (c : call) (ws : list write) : hfile :=
  match c with
  | Dump _ a o => interrupted n f a o (target c) ws
  | DumpFit _ a | DumpLimit _ _ a => interrupted n f a false (target c) ws
  | DumpObject _ => f
  end.
(** The steps of a call that is not stopped. *)
Definition steps (ws : list write) : nat := 3 + length ws.
(** What a reader gets: the same as from the file [f], or an error. *)
Definition as_before {A} (read : hfile -> res A) (f f' : hfile) : Prop := read f' = read f \/ exists x, read f' = Err x.
(** The root of a file that this version of the code made (only older versions wrote a spectrum there). *)
Definition no_old_spectrum (f : hfile) : Prop := dget "name" (root_attrs f) = None.
(** [dec] is the text of a number, distinct for distinct numbers, and limit results have a fit result (or
    None) for each of their statistics. *)
Definition storable_call (dec : nat -> string) (c : call) : Prop :=
  match c with
  | DumpLimit dec' lr _ => dec' = dec /\ good_dec dec /\ exists sub, ashape (lr_stats lr) = length (lr_fits lr) :: sub
  | _ => True
  end.
(** Any number of saves, each of any kind and stopped at any step before its last. *)
Inductive interruptions (dec : nat -> string) : hfile -> hfile -> Prop :=
| no_more f : interruptions dec f f
| one_more f f' c ws n : interruptions dec f f' -> written c ws -> storable_call dec c -> n < steps ws -> interruptions dec f (stopped n f' c ws).

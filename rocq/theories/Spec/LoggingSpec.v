(** What is logged, independent of how. *)
From Verif Require Import Model.Base Model.PyStr Model.Logging.
Local Open Scope string_scope.
Local Open Scope nat_scope.

(** Logger [a] is above logger [n]. *)
Definition above_of (a n : string) : Prop := exists rest, n = a ++ "." ++ rest.
(** The candidates for the format of logger [n]: itself and the loggers above it that exist. *)
Definition candidate (names : list string) (n a : string) : Prop := a = n \/ (above_of a n /\ In a names).
(** [a] is the nearest candidate for which there is a format. *)
Definition nearest (has : string -> Prop) (names : list string) (n a : string) : Prop :=
  has a /\ candidate names n a /\ forall b, has b -> candidate names n b -> String.length b <= String.length a.

(** The extra logger and those below it. *)
Definition is_extra (n : string) : bool := String.eqb n "extra" || starts_with "extra." n.
(** What a program that has started logging says: messages through loggers (true), and warnings that
    Python prints itself (false).  A warning is an error instead once the mode was cautious at a
    start; whether warnings go to the log was said at the last start. *)
Fixpoint said (capture strict : bool) (l : list lop) : list (bool * record) :=
  match l with
  | [] => []
  | OStart file pr a :: l' =>
      (true, Rec "root" 20 ("Starting script: " ++ module_of file ++ ".py")) ::
      said (sa_capture a) (strict || String.eqb (pr_mode pr) "cautious") l'
  | OLog r :: l' => (true, r) :: said capture strict l'
  | ORoot level text :: l' => (true, Rec "root" level text) :: said capture strict l'
  | OWarn text :: l' =>
      if strict then said capture strict l'
      else if capture then (true, Rec "py.warnings" 30 text) :: said capture strict l'
      else (false, Rec "" 30 text) :: said capture strict l'
  | OGet _ :: l' => said capture strict l'
  end.
(** The lines of the log file: everything from level 10 (debug) on, once, in order. *)
Definition file_lines (l : list (bool * record)) : list line :=
  flat_map (fun x : bool * record => if fst x && (10 <=? r_level (snd x)) then [(FFile, snd x)] else []) l.
(** The lines on the terminal for level [lvl]. *)
Definition term_lines (lvl : nat) (l : list (bool * record)) : list line :=
  flat_map (fun x : bool * record => if fst x then if (10 <=? r_level (snd x)) && (lvl <=? r_level (snd x))
                                   then [(if is_extra (r_name (snd x)) then FExtra else FColour, snd x)] else []
                     else [(FPlain, snd x)]) l.
(** The messages of the start itself. *)
Definition start_lines (version path module : string) : list (bool * record) :=
  [(true, Rec "root" 20 ("echidna-v" ++ version)); (true, Rec "root" 20 ("Saving logfile to " ++ path));
   (true, Rec "root" 20 ("Starting script: " ++ module ++ ".py"));
   (true, Rec "extra" 20 "Use the 'extra' logger at any time to add extra information.")].

(** Before logging is started: no message goes through the module logging itself, and no start gets
    further than the missing directory. *)
Definition quiet (o : lop) : Prop :=
  match o with ORoot _ _ => False | OStart _ pr _ => pr_isdir pr = false | _ => True end.
(** A start in cautious mode. *)
Definition cautious_start (o : lop) : Prop := match o with OStart _ pr _ => pr_mode pr = "cautious" | _ => False end.
(** The levels of the settings. *)
Definition level_meant (name : string) (lvl : nat) : Prop :=
  (name = "debug" /\ lvl = 10) \/ (name = "info" /\ lvl = 20) \/ (name = "warning" /\ lvl = 30).
(** A decimal notation: different numbers look different and have no dot. *)
Definition plain_dec (dec : nat -> string) : Prop := (forall i j, dec i = dec j -> i = j) /\ forall i, contains "." (dec i) = false.

(** echidna/utilities.py 73-218: start_logging and the formatter of the terminal, on the root logger of
    Python's logging module.  Texts of messages are kept, times and colours are not.  Every warning
    comes from a new place of the program, so Python does not suppress it as a repetition.  Opening
    the file does not fail. *)
From Verif Require Import Model.Base Model.PyStr.
Local Open Scope string_scope.
Local Open Scope nat_scope.

(** The levels of logging (utilities.py:160, 166-168). *)
Definition DEBUG : nat := 10.
(** utilities.py:167 *)
Definition INFO : nat := 20.
(** utilities.py:168 *)
Definition WARNING : nat := 30.
(** A message: logger, level, text (utilities.py:92). *)
Record record := Rec { r_name : string; r_level : nat; r_text : string }.
(** The formats: of the file (utilities.py:157-158), of the terminal (173), of the terminal for the
    extra logger (182-183), and the one logging uses by itself. *)
Inductive fmt := FFile | FColour | FExtra | FPlain.
(** A line of output, utilities.py:109. *)
Definition line := (fmt * record)%type.
(** Handlers of the root logger: a log file (utilities.py:159-163), the terminal from a level on
    (169-171, 200), and the terminal as logging sets it up by itself. *)
Inductive handler := HFile (path : string) | HConsole (level : nat) | HDefault.
(** The state of the modules logging, warnings and utilities (utilities.py:112, 135-138, 216). *)
Record lstate := LS {
  l_handlers : list handler;
  l_level : nat;                            (* of the root logger *)
  l_names : list string;                    (* loggers that exist *)
  l_set : bool;                             (* logger_set *)
  l_strict : bool;                          (* UserWarning is an error *)
  l_capture : bool;                         (* captureWarnings *)
  l_files : string -> option (list line);
  l_term : list line }.
(** A new process, utilities.py:112. *)
Definition fresh (files : string -> option (list line)) : lstate := LS [] WARNING [] false false false files [].

(** logging.getLogger(name), utilities.py:99: makes the logger if it does not exist *)
Definition get_logger (n : string) (s : lstate) : lstate :=
  LS (l_handlers s) (l_level s) (n :: l_names s) (l_set s) (l_strict s) (l_capture s) (l_files s) (l_term s).
(** The dotted names above the one with the parts [l], longest first. utilities.py:106 *)
Fixpoint above (l : list string) : list string :=
  match l with
  | [] | [_] => []
  | x :: l' => (map (fun y => (x ++ "." ++ y)%string) (above l') ++ [x])%list
  end.
(** utilities.py:99-106: the names of the loggers from [n] up; loggers that were not made are left
    out, as logging does.  The root logger is called root. *)
Definition ancestors (names : list string) (n : string) : list string :=
  (n :: filter (fun a => str_in a names) (above (split_char "."%char n)) ++ ["root"])%list.
(** utilities.py:88-109, DispatchingFormatter.format *)
Definition dispatch {F} (forms : dict F) (default : F) (names : list string) (n : string) : F :=
  match find (fun a => str_in a (dkeys forms)) (ancestors names n) with
  | Some a => match dget a forms with Some f => f | None => default end
  | None => default
  end.
(** utilities.py:197-199 *)
Definition console_format (names : list string) (n : string) : fmt := dispatch [("extra", FExtra)] FColour names n.

(** A handler gets a message. utilities.py:157-200 *)
Definition handle (r : record) (s : lstate) (h : handler) : lstate :=
  match h with
  | HFile p =>
      LS (l_handlers s) (l_level s) (l_names s) (l_set s) (l_strict s) (l_capture s)
         (fun q => if String.eqb q p then Some (match l_files s p with Some l => l | None => [] end ++ [(FFile, r)])%list else l_files s q)
         (l_term s)
  | HConsole lvl =>
      if r_level r <? lvl then s
      else let s1 := get_logger (r_name r) s in
           LS (l_handlers s1) (l_level s1) (l_names s1) (l_set s1) (l_strict s1) (l_capture s1) (l_files s1)
              (l_term s1 ++ [(console_format (l_names s1) (r_name r), r)])%list
  | HDefault =>
      LS (l_handlers s) (l_level s) (l_names s) (l_set s) (l_strict s) (l_capture s) (l_files s) (l_term s ++ [(FPlain, r)])%list
  end.
(** Logger.log: loggers have no levels or handlers of their own. utilities.py:203-207 *)
Definition send (r : record) (s : lstate) : lstate :=
  if r_level r <? l_level s then s else fold_left (handle r) (l_handlers s) s.
(** logging.getLogger(n).log(level, text), utilities.py:206 *)
Definition log_to (r : record) (s : lstate) : lstate := send r (get_logger (r_name r) s).
(** logging.log(level, text) (utilities.py:203-205, parameter.py:344-346, 441-443); without handlers
    it sets up one. *)
Definition log_root (level : nat) (text : string) (s : lstate) : lstate :=
  let s1 := match l_handlers s with
            | [] => LS [HDefault] (l_level s) (l_names s) (l_set s) (l_strict s) (l_capture s) (l_files s) (l_term s)
            | _ => s
            end in
  send (Rec "root" level text) s1.
(** warnings.warn(text, UserWarning); the exception is EException. utilities.py:135-138 *)
Definition warn_user (text : string) (s : lstate) : lstate * option exn :=
  if l_strict s then (s, Some EException)
  else if l_capture s then (log_to (Rec "py.warnings" WARNING text) s, None)
  else (LS (l_handlers s) (l_level s) (l_names s) (l_set s) (l_strict s) (l_capture s) (l_files s)
           (l_term s ++ [(FPlain, Rec "" WARNING text)])%list, None).

(** The settings: mode, log level, directory of the log files and whether it exists
    (settings.py:32-43), host and process (utilities.py:153). *)
Record profile := Profile {
  pr_mode : string;
  pr_level : string;
  pr_path : string;
  pr_isdir : bool;
  pr_host : string;
  pr_pid : nat }.
(** The arguments, utilities.py:115. *)
Record startargs := StartArgs { sa_capture : bool; sa_short : bool; sa_script : bool }.
(** utilities.py:141-143: what is between the last "/" and the last "." *)
Definition module_of (file : string) : string :=
  let base := last (split_char "/"%char file) "" in
  let l := split_char "."%char base in
  match l with
  | [_] => drop_last 1 base                   (* no dot: rfind gives -1 *)
  | _ => join "." (removelast l)
  end.
Section Logging.
(** "%d" % pid *)
Variable dec : nat -> string.
(** utilities.py:149-155 *)
Definition log_name (pr : profile) (a : startargs) (module : string) : string :=
  "echidna" ++ (if sa_script a then "." ++ module else "") ++
  (if sa_short a then "" else "." ++ pr_host pr ++ "." ++ dec (pr_pid pr)) ++ ".log".
(** utilities.py:166-168 *)
Definition level_of (l : string) : res nat := dlookup l [("debug", DEBUG); ("info", INFO); ("warning", WARNING)].
(** logging.basicConfig, utilities.py:159-163: does nothing if there is a handler *)
Definition basic_config (path : string) (s : lstate) : lstate :=
  match l_handlers s with
  | [] => LS [HFile path] DEBUG (l_names s) (l_set s) (l_strict s) (l_capture s)
             (fun q => if String.eqb q path then Some [] else l_files s q) (l_term s)
  | _ => s
  end.
(** utilities.py:201, addHandler *)
Definition add_console (level : nat) (s : lstate) : lstate :=
  LS (l_handlers s ++ [HConsole level])%list (l_level s) (l_names s) (l_set s) (l_strict s) (l_capture s) (l_files s) (l_term s).
(** utilities.py:210 *)
Definition mark_set (s : lstate) : lstate :=
  LS (l_handlers s) (l_level s) (l_names s) true (l_strict s) (l_capture s) (l_files s) (l_term s).
(** utilities.py:135-138 *)
Definition set_warnings (capture strict : bool) (s : lstate) : lstate :=
  LS (l_handlers s) (l_level s) (l_names s) (l_set s) (l_strict s || strict) capture (l_files s) (l_term s).
(** utilities.py:115-212, start_logging; [file] is the file of the caller, [version] the version *)
Definition start_logging (version file : string) (pr : profile) (a : startargs) (s : lstate) : lstate * res string :=
  let s := set_warnings (sa_capture a) (String.eqb (pr_mode pr) "cautious") s in
  let module := module_of file in
  if l_set s then (get_logger module (log_root INFO ("Starting script: " ++ module ++ ".py") s), Ok module)
  else if negb (pr_isdir pr) then (s, Err EIOError)
  else
    let name := log_name pr a module in
    let s := basic_config (pr_path pr ++ name) s in
    match level_of (pr_level pr) with
    | Err e => (s, Err e)
    | Ok lvl =>
        let s := add_console lvl s in
        let s := log_root INFO ("echidna-v" ++ version) s in
        let s := log_root INFO ("Saving logfile to " ++ pr_path pr ++ name) s in
        let s := log_root INFO ("Starting script: " ++ module ++ ".py") s in
        let s := log_to (Rec "extra" INFO "Use the 'extra' logger at any time to add extra information.") s in
        (get_logger module (mark_set s), Ok module)
    end.

(** What a program does: start (again), log, log through the module, warn, make a logger.
    utilities.py:99, 115-212 *)
Inductive lop :=
| OStart (file : string) (pr : profile) (a : startargs)
| OLog (r : record)
| ORoot (level : nat) (text : string)
| OWarn (text : string)
| OGet (n : string).
(** One step, with the exception it raises. utilities.py:115-212 *)
Definition lstep (version : string) (o : lop) (s : lstate) : lstate * option exn :=
  match o with
  | OStart file pr a => let (s', r) := start_logging version file pr a s in (s', match r with Ok _ => None | Err e => Some e end)
  | OLog r => (log_to r s, None)
  | ORoot level text => (log_root level text s, None)
  | OWarn text => warn_user text s
  | OGet n => (get_logger n s, None)
  end.
(** A history (utilities.py:115-212); exceptions are caught by the caller. *)
Fixpoint lrun (version : string) (l : list lop) (s : lstate) : lstate :=
  match l with [] => s | o :: l' => lrun version l' (fst (lstep version o s)) end.
End Logging.

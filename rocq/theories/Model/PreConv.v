(** echidna/core/parameter.py: get_pre_convolved of ResolutionParameter (733-807),
    ScaleParameter (851-921) and ShiftParameter (965-1035).  The three methods differ in
    the directory name and the two-letter extension only. *)
From Verif Require Import Model.Base Model.PyStr.
Local Open Scope string_scope.
Local Open Scope list_scope.

(** The current value of the parameter and [str] of it. parameter.py:785-790, 899-904, 1013-1018 *)
Record pvalue := PVal { pv_num : Qc; pv_str : string }.

(** [l.index(x)] (ValueError if missing); parameter.py:779, 897, 1011 *)
Fixpoint str_index (x : string) (l : list string) : res nat :=
  match l with
  | [] => Err EValueError
  | y :: l' => if String.eqb x y then Ok 0%nat else do k <- str_index x l'; Ok (S k)
  end.
(** [l[-k:]]: the last k elements, everything if k = 0; parameter.py:779-783 *)
Definition last_items (k : nat) (l : list string) : list string :=
  match k with O => l | _ => skipn (length l - k) l end.

(** parameter.py:774-783 / 892-901 / 1006-1015.  [directory[-1]] of an empty string raises. *)
Definition conv_dir (syst dim : string) (added : bool) (directory : string) : res string :=
  match directory with
  | EmptyString => Err EIndexError
  | _ =>
      let d := if String.eqb (last_n 1 directory) "/" then directory else (directory ++ "/")%string in
      if added then Ok (d ++ syst ++ "/")%string
      else
        let dir_list := split_char "/"%char d in
        do idx <- str_index dim (rev dir_list);
        if str_in syst (last_items idx dir_list) then Ok d else Ok (d ++ syst ++ "/")%string
  end.

(** parameter.py:788-790 *)
Definition value_string (v : pvalue) : string := rstrip "."%char (rstrip "0"%char (pv_str v)).

(** parameter.py:791-807 / 905-921 / 1019-1035.  One token: its new text and whether it was replaced. *)
Definition conv_token (ext vs x : string) : string * bool :=
  if String.eqb (last_n 2 x) ext then ((vs ++ ext)%string, true)
  else if String.eqb (last_n 7 x) (ext ++ ".hdf5") then ((vs ++ ext ++ ".hdf5")%string, true)
  else (x, false).
(** parameter.py:801-804: an underscore unless the token ends the name. *)
Definition conv_tail (x : string) : string :=
  if String.eqb (last_n 5 x) ".hdf5" then x else (x ++ "_")%string.
(** parameter.py:794-804, 908-918, 1022-1032: the loop over the tokens. *)
Fixpoint conv_tokens (ext vs : string) (l : list string) : string * bool :=
  match l with
  | [] => ("", false)
  | x :: l' =>
      let '(y, b) := conv_token ext vs x in
      let '(r, b') := conv_tokens ext vs l' in
      ((conv_tail y ++ r)%string, b || b')
  end.
(** parameter.py:791-806, 905-920, 1019-1034: the file name. *)
Definition conv_name (ext vs filename : string) : string :=
  let '(temp, subbed) := conv_tokens ext vs (split_char "_"%char filename) in
  if subbed then temp else (drop_last 5 temp ++ "_" ++ vs ++ ext ++ ".hdf5")%string.

(** parameter.py:733-807, 851-921, 965-1035, get_pre_convolved with directory name and extension as arguments. *)
Definition pre_convolved (syst ext dim : string) (added : bool) (cur : option pvalue)
  (directory filename : string) : res (string * string) :=
  match cur with
  | None => Err EValueError
  | Some v =>
      do d <- conv_dir syst dim added directory;
      Ok (d, conv_name ext (value_string v) filename)
  end.

(** The three classes with get_pre_convolved: parameter.py:687, 810, 924. *)
Inductive syst := Resolution | ScaleSyst | ShiftSyst.
(** parameter.py:784-787: light yields above 10 *)
Definition syst_ext (k : syst) (v : pvalue) : string :=
  match k with
  | Resolution => if qlt (zq 10) (pv_num v) then "ly" else "rs"
  | ScaleSyst => "sc"
  | ShiftSyst => "sh"
  end.
(** Name of the directory: parameter.py:781, 899, 1013. *)
Definition syst_dir (k : syst) : string :=
  match k with Resolution => "smear" | ScaleSyst => "scale" | ShiftSyst => "shift" end.
(** parameter.py:733-807, 851-921, 965-1035, get_pre_convolved *)
Definition get_pre_convolved (k : syst) (dim : string) (added : bool) (cur : option pvalue)
  (directory filename : string) : res (string * string) :=
  pre_convolved (syst_dir k) (match cur with Some v => syst_ext k v | None => "" end) dim added cur directory filename.

(** Python 2 string operations used by echidna, on byte strings. *)
From Verif Require Import Model.Base.
Local Open Scope string_scope.
Local Open Scope list_scope.

(** A string of one character. store.py:66-70 *)
Definition chr (c : ascii) : string := String c EmptyString.

(** [s.split(c)] for a one-character separator. store.py:66-70; config.py:792; parameter.py:777, 791 *)
Fixpoint split_char (c : ascii) (s : string) : list string :=
  match s with
  | EmptyString => [EmptyString]
  | String a s' =>
      let r := split_char c s' in
      if Ascii.eqb a c then EmptyString :: r
      else match r with
           | w :: ws => String a w :: ws
           | [] => [String a EmptyString]
           end
  end.

(** [sep.join(l)]; parameter.py:780-800; config.py:792-800 *)
Fixpoint join (sep : string) (l : list string) : string :=
  match l with
  | [] => ""
  | [x] => x
  | x :: l' => x ++ sep ++ join sep l'
  end%string.

(** [s.startswith(p)]; store.py:325 *)
Fixpoint starts_with (p s : string) : bool :=
  match p, s with
  | EmptyString, _ => true
  | String a p', String b s' => Ascii.eqb a b && starts_with p' s'
  | _, _ => false
  end.

(** [p in s]; spectra.py:211-216 *)
Fixpoint contains (p s : string) : bool :=
  starts_with p s ||
  match s with
  | EmptyString => false
  | String _ s' => contains p s'
  end.

(** [s[:-k]] for k >= 1, [s[-k:]], [s[k:]]; spectra.py:212-216 *)
Definition drop_last (k : nat) (s : string) : string :=
  substring 0 (String.length s - k) s.
(** [s[-k:]], parameter.py:795-801. *)
Definition last_n (k : nat) (s : string) : string :=
  substring (String.length s - k) k s.
(** [s[k:]], spectra.py:202-222. *)
Definition drop (k : nat) (s : string) : string :=
  substring k (String.length s - k) s.

(** [s.split(p)[0]] for a non-empty string p: the part before its first occurrence. spectra.py:212-216 *)
Fixpoint before (p s : string) : string :=
  if starts_with p s then ""
  else match s with
       | EmptyString => ""
       | String a s' => String a (before p s')
       end.

(** [s.replace(old, new)], old non-empty: non-overlapping, left to right.  The counter
    skips the remaining characters of a match. config.py:294 *)
Fixpoint replace_aux (old new : string) (skip : nat) (s : string) : string :=
  match s with
  | EmptyString => ""
  | String a s' =>
      match skip with
      | S k => replace_aux old new k s'
      | O => if starts_with old s
             then (new ++ replace_aux old new (String.length old - 1) s')%string
             else String a (replace_aux old new 0 s')
      end
  end.
(** s.replace(old, new), config.py:292. *)
Definition replace (old new s : string) : string := replace_aux old new 0 s.

(** [s.rstrip(c)]; parameter.py:790, 904, 1018 *)
Fixpoint rstrip (c : ascii) (s : string) : string :=
  match s with
  | EmptyString => ""
  | String a s' =>
      match rstrip c s' with
      | EmptyString => if Ascii.eqb a c then "" else String a ""
      | r => String a r
      end
  end.

(** [sorted(l)] on strings: byte-wise lexicographic, stable insertion sort. config.py:791, 826 *)
Fixpoint str_insert (x : string) (l : list string) : list string :=
  match l with
  | [] => [x]
  | y :: l' => if String.leb x y then x :: l else y :: str_insert x l'
  end.
(** sorted(l), config.py:797. *)
Definition str_sort (l : list string) : list string := fold_right str_insert [] l.

(** [x in l]; config.py:288; spectra.py:454-470 *)
Definition str_in (x : string) (l : list string) : bool := existsb (String.eqb x) l.

(** Ordered dictionaries with string keys (OrderedDict, and dict where the iteration
    order does not matter). [dset] keeps the position of an existing key. config.py:33-46 *)
Definition dict (A : Type) := list (string * A).
(** d.get(k), d[k] of a dictionary. config.py:103-112 *)
Fixpoint dget {A} (k : string) (d : dict A) : option A :=
  match d with
  | [] => None
  | (k', v) :: d' => if String.eqb k k' then Some v else dget k d'
  end.
(** d[k] = v: an existing key keeps its place, a new one goes to the end (OrderedDict; for plain dicts the order is not observed).
    config.py:262 *)
Fixpoint dset {A} (k : string) (v : A) (d : dict A) : dict A :=
  match d with
  | [] => [(k, v)]
  | (k', v') :: d' => if String.eqb k k' then (k', v) :: d' else (k', v') :: dset k v d'
  end.
(** d.keys(); config.py:133 *)
Definition dkeys {A} (d : dict A) : list string := map fst d.
(** [d[k]]; config.py:103-112 *)
Definition dlookup {A} (k : string) (d : dict A) : res A :=
  match dget k d with Some v => Ok v | None => Err EKeyError end.

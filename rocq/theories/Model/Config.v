(** Spectra configurations: echidna/core/config.py, Config (15-208) and
    SpectraConfig (660-833), the parts used by Spectra. *)
From Verif Require Import Model.Base Model.PyStr Model.Param.
Local Open Scope string_scope.

(** An OrderedDict of named parameters (config.py:30-36). *)
Definition sconfig := dict spar.

(** config.py:127-133 *)
Definition get_pars (c : sconfig) : list string := dkeys c.

(** config.py:78-93, Config.get_index *)
Fixpoint index_of (x : string) (l : list string) : res nat :=
  match l with
  | [] => Err EIndexError
  | p :: l' => if String.eqb p x then Ok 0%nat else rmap S (index_of x l')
  end.
(** config.py:78-93, Config.get_index *)
Definition get_index (c : sconfig) (p : string) : res nat := index_of p (get_pars c).

(** config.py:103-112 *)
Definition get_par (c : sconfig) (n : string) : res spar := dlookup n c.

(** config.py:114-125 (index >= 0; negative Python indices are not modelled) *)
Definition get_par_by_index (c : sconfig) (i : nat) : res spar :=
  match nth_error (get_pars c) i with
  | Some n => get_par c n
  | None => Err EIndexError
  end.

(** config.py:135-145 *)
Definition get_shape (c : sconfig) : list Z := map (fun kp => sp_bins (snd kp)) c.

(** config.py:38-45 *)
Definition add_par (c : sconfig) (name : string) (p : spar) : sconfig := dset name p c.

(** config.py:799-812, SpectraConfig.get_dim: drop the last '_' component. *)
Definition get_dim (par : string) : string :=
  join "_" (removelast (split_char "_"%char par)).

(** config.py:783-797, SpectraConfig.get_dims *)
Definition get_dims (c : sconfig) : list string := map get_dim (str_sort (get_pars c)).

(** config.py:814-833, SpectraConfig.get_dim_type *)
Fixpoint dim_type_in (dim : string) (pars : list string) : res string :=
  match pars with
  | [] => Err EIndexError
  | p :: ps => if String.eqb (get_dim p) dim then Ok (last (split_char "_"%char p) "")
               else dim_type_in dim ps
  end.
(** config.py:814-833, SpectraConfig.get_dim_type *)
Definition get_dim_type (c : sconfig) (dim : string) : res string :=
  dim_type_in dim (str_sort (get_pars c)).

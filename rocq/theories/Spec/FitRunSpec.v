(** Specification vocabulary for C52: the expected spectrum of a fit as a function of the
    spectra the fit was given and of the parameter values, without objects, histories or
    stored intermediate results. *)
From Verif Require Import Model.Base Model.PyStr Model.NDArray Model.Param Model.Config Model.Spectra
  Model.Smear Model.Shift Model.Heap Model.Minimise Model.Fit.
From Verif Require Import Spec.AxisSpec Spec.ArraySpec Spec.SpectraSpec Spec.ShrinkSpec Spec.HeapSpec.

Definition same_array (a b : ndarray) : Prop :=
  ashape a = ashape b /\ forall i, valid_idx (ashape a) i -> aget a i = aget b i.
Definition same_res {A} (R : A -> A -> Prop) (x y : res A) : Prop :=
  match x, y with Ok a, Ok b => R a b | Err e, Err f => e = f | _, _ => False end.

(** A parameter with a value, applied to a spectrum: a rate is the number of decays to scale
    to; the others smear, shift or stretch. *)
Definition apply_value (k : pkind) (v : Qc) (s : spectra) : res spectra :=
  match k with
  | KRate => match scale v s with (s', None) => Ok s' | (_, Some e) => Err e end
  | KDerive f => do d <- f v s; derive d s
  end.
(** The parameters [l] (positions), one after the other. *)
Fixpoint apply_values (ps : list fitpar) (args : list Qc) (l : list nat) (s : spectra) : res spectra :=
  match l with
  | [] => Ok s
  | i :: l' =>
      match nth_error ps i, nth_error args i with
      | Some p, Some v => do s' <- apply_value (q_kind p) v s; apply_values ps args l' s'
      | _, _ => Err EValueError
      end
  end.
(** Each parameter of [l] on the original spectrum, all but the last result dropped. *)
Fixpoint apply_last (ps : list fitpar) (args : list Qc) (l : list nat) (s last : spectra) : res spectra :=
  match l with
  | [] => Ok last
  | i :: l' => do s' <- apply_values ps args [i] s; apply_last ps args l' s s'
  end.

(** The spectrum an object shows. *)
Definition shown (h : heap) (r : nat) : res spectra :=
  match abs h r with Some s => Ok s | None => Err EAttributeError end.
(** Projection of one spectrum of the fit after the parameters [l]. *)
Definition contribution (ft : fit) (h : heap) (args : list Qc) (l : list nat) (p : part) : res ndarray :=
  do s <- shown h (pt_ref p);
  do s' <- apply_values (ft_pars ft) args l s;
  nd_project (pt_pars p) s'.
Definition floating_contribution (ft : fit) (h : heap) (args : list Qc) (p : part) : res ndarray :=
  contribution ft h args (global_pars ft ++ pt_own p) p.
Definition signal_contribution (ft : fit) (h : heap) (args : list Qc) (p : part) : res ndarray :=
  contribution ft h args (global_pars ft) p.

(** Sum of arrays of the same shape, from left to right. *)
Fixpoint sum_parts (acc : option ndarray) (l : list (res ndarray)) : res (option ndarray) :=
  match l with
  | [] => Ok acc
  | x :: l' =>
      do a <- x;
      match acc with
      | None => sum_parts (Some a) l'
      | Some b => if list_eq_dec Nat.eq_dec (ashape b) (ashape a) then sum_parts (Some (aplus b a)) l' else Err EValueError
      end
  end.
(** The expected spectrum: the fixed background, every floating background with its global
    and its own parameters, the signal with the global parameters. *)
Definition expected (ft : fit) (h : heap) (args : list Qc) (sig : part -> res ndarray) : res ndarray :=
  do fixed <- (match ft_fixed ft with
               | None => Ok None
               | Some (r, pars) => do s <- shown h r; rmap Some (nd_project pars s)
               end);
  do e <- sum_parts fixed (map (floating_contribution ft h args) (ft_floating ft) ++
                           match ft_signal ft with Some p => [sig p] | None => [] end);
  match e with Some e => Ok e | None => Err ETypeError end.
Definition observed (ft : fit) (h : heap) : res ndarray :=
  do s <- shown h (ft_data ft); nd_project (ft_data_pars ft) s.
Definition fitted (ft : fit) (h : heap) (args : list Qc) : res (ndarray * ndarray) :=
  do o <- observed ft h;
  do e <- expected ft h args (signal_contribution ft h args);
  Ok (o, e).
(** The same with a signal to which only the last global parameter is applied. *)
Definition last_contribution (ft : fit) (h : heap) (args : list Qc) (p : part) : res ndarray :=
  do s <- shown h (pt_ref p);
  do s' <- apply_last (ft_pars ft) args (global_pars ft) s s;
  nd_project (pt_pars p) s'.
Definition fitted_last (ft : fit) (h : heap) (args : list Qc) : res (ndarray * ndarray) :=
  do o <- observed ft h;
  do e <- expected ft h args (last_contribution ft h args);
  Ok (o, e).

(** The contents that are compared: one number per bin, in row-major order, or the total. *)
Definition contents (single_bin : bool) (a : ndarray) : list Qc :=
  if single_bin then [total (ashape a) (aget a)] else map (aget a) (all_idx (ashape a)).
(** The penalty terms of the parameters that have a prior width. *)
Fixpoint penalties (pen : Qc -> Qc -> Qc -> Qc) (ps : list fitpar) (args : list Qc) : Qc :=
  match ps, args with
  | p :: ps', v :: args' => (match q_sigma p with Some s => pen v (q_prior p) s | None => 0 end + penalties pen ps' args')%Qc
  | _, _ => 0%Qc
  end.
(** The value of the function to minimise, for given observed and expected spectra. *)
Definition value_of (ft : fit) (h : heap) stat pen (per_bin single_bin : bool) (args : list Qc) (x : res (ndarray * ndarray)) : res (sres * Qc) :=
  do oe <- x;
  do t <- stat (contents single_bin (fst oe)) (contents single_bin (snd oe));
  do d <- shown h (ft_data ft);
  do t <- (if per_bin then rmap RArr (areshape (ashape (s_data d)) (match t with RArr a => a | RNum x => ND [] (fun _ => x) end)) else Ok t);
  Ok (t, penalties pen (ft_pars ft) args).
Definition same_pair (x y : ndarray * ndarray) : Prop := same_array (fst x) (fst y) /\ same_array (snd x) (snd y).

(** ** When the spectra are ready for the fit *)
(** A parameter name has a dimension and a type: energy_mc. *)
Definition typed_name (v : string) : Prop := exists d t, v = (d ++ "_" ++ t)%string.
(** [s] has the axes of the data: the same dimensions (of any type) in the same order with
    the same bounds and bins. *)
Definition same_axes (d s : spectra) : Prop :=
  Forall2 (fun x y => get_dim (fst x) = get_dim (fst y) /\ snd x = snd y) (s_cfg d) (s_cfg s) /\
  NoDup (map (fun y => get_dim (fst y)) (s_cfg s)) /\ Forall (fun y => typed_name (fst y)) (s_cfg s).
Definition fit_ready (d s : spectra) : Prop :=
  wf_spectra s /\ s_cfg s <> [] /\ Forall (fun vp => aligned (snd vp)) (s_cfg s) /\ same_axes d s.
(** Smearing, shifting and stretching depend on nothing but the spectrum as it is seen. *)
Definition sees (k : pkind) : Prop :=
  forall v s s', same_spectra s s' -> same_res same_spectra (apply_value k v s) (apply_value k v s').

Definition all_parts (ft : fit) : list part := ft_floating ft ++ match ft_signal ft with Some p => [p] | None => [] end.
Definition name_of (h : heap) (p : part) : option string :=
  match abs h (pt_ref p) with
  | Some s => match snd (get_background_name s) with Ok n => Some n | Err _ => None end
  | None => None
  end.
Record prepared (ft : fit) (h : heap) : Prop := Prepared {
  pr_heap : wf_heap h;
  pr_some : ft_floating ft <> [];
  pr_data : exists d, abs h (ft_data ft) = Some d /\ wf_spectra d /\
              forall p, In p (ft_floating ft) \/ (global_pars ft <> [] /\ ft_signal ft = Some p) ->
                exists s, abs h (pt_ref p) = Some s /\ fit_ready d s;
  pr_fixed : forall r pars, ft_fixed ft = Some (r, pars) -> exists s, abs h r = Some s;
  pr_signal : forall p, ft_signal ft = Some p -> exists s, abs h (pt_ref p) = Some s /\
                (global_pars ft <> [] -> s_decays s <> 0%Qc);
  (* no spectrum is used twice *)
  pr_floating_nodup : NoDup (map pt_ref (ft_floating ft));
  pr_data_apart : ~ In (ft_data ft) (map pt_ref (ft_floating ft));
  pr_fixed_apart : forall r pars, ft_fixed ft = Some (r, pars) -> ~ In r (map pt_ref (ft_floating ft));
  pr_signal_apart : forall p, ft_signal ft = Some p -> ~ In (pt_ref p) (map pt_ref (ft_floating ft));
  (* global parameters smear, shift or stretch *)
  pr_global : forall i p, In i (global_pars ft) -> nth_error (ft_pars ft) i = Some p -> exists f, q_kind p = KDerive f;
  pr_sees : forall p, In p (ft_pars ft) -> sees (q_kind p);
  (* background names tell the spectra apart *)
  pr_names : global_pars ft <> [] ->
    NoDup (map (name_of h) (all_parts ft)) /\ ~ In None (map (name_of h) (all_parts ft)) }.
(** The printed form of the values in use tells them apart and contains no underscore. *)
Definition distinct_printing (ft : fit) (V : Qc -> Prop) : Prop :=
  (forall x y, V x -> V y -> ft_str ft x = ft_str ft y -> x = y) /\
  (forall x a b, V x -> ft_str ft x <> (a ++ "_" ++ b)%string).
(** One value for each parameter, rates not zero. *)
Definition good_args (ft : fit) (V : Qc -> Prop) (args : list Qc) : Prop :=
  length args = length (ft_pars ft) /\ Forall V args /\
  forall i p v, nth_error (ft_pars ft) i = Some p -> nth_error args i = Some v -> q_kind p = KRate -> v <> 0%Qc.

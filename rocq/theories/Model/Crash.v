(** The dump functions of echidna/output/store.py as the sequences of calls of h5py they make.  If one is
    interrupted (KeyboardInterrupt, MemoryError, a full disk) the with statement closes the file with what
    has been written so far; the state is then that after some number of calls.  Each call is atomic; a
    loss of power, which can damage the file itself, is not modelled.  Model/Store.v has the same functions
    from the first state to the last. *)
From Verif Require Import Model.Base Model.PyStr Model.NDArray Model.Param Model.Config Model.Spectra Model.FitParam Model.Minimise Model.FitConfig Model.ConfigFile Model.Store.
Local Open Scope string_scope.

(** A call of the group or one of its subgroups ([Some name]): group.attrs[k] = v, create_dataset(k, a),
    create_group(k); store.py:95-119, 166-180, 202-241 *)
Inductive write := WAttr (sub : option string) (k : string) (v : hattr) | WData (sub : option string) (k : string) (a : ndarray) | WGroup (k : string).
(** A call of a subgroup, store.py:225-236 *)
Definition on_sub (g : string) (f : dict hattr -> dict hobj -> hobj) (m : dict hobj) : dict hobj :=
  map (fun kv => if String.eqb (fst kv) g then (fst kv, match snd kv with HGroup a m' => f a m' | o => o end) else kv) m.
(** The attributes and members of the group after a call, store.py:95-119 *)
Definition wapply (c : dict hattr * dict hobj) (w : write) : dict hattr * dict hobj :=
  let (a, m) := c in
  match w with
  | WAttr None k v => (dset k v a, m)
  | WAttr (Some g) k v => (a, on_sub g (fun a' m' => HGroup (dset k v a') m') m)
  | WData None k d => (a, (m ++ [(k, HData d)])%list)
  | WData (Some g) k d => (a, on_sub g (fun a' m' => HGroup a' (m' ++ [(k, HData d)])%list) m)
  | WGroup k => (a, (m ++ [(k, HGroup [] [])])%list)
  end.
(** A new group after some calls, store.py:94-119 *)
Definition grown (ws : list write) : hobj := let c := fold_left wapply ws ([], []) in HGroup (fst c) (snd c).
(** Attributes written in order, store.py:95-118, 167-175, 203-214 *)
Definition wattrs (d : dict hattr) : list write := map (fun kv => WAttr None (fst kv) (snd kv)) d.

(** store.py:95-119, dump *)
Definition spectrum_writes (s : stored) (bg : string) : list write :=
  wattrs (spectrum_attrs s bg) ++ [WData None "data" (s_data (st_spec s))].
(** store.py:167-180, dump_fit_results, for a configuration that was dumped as [dg], [ds] *)
Definition fit_writes (name : string) (fr : fresults) (dg ds : jdict) : list write :=
  wattrs [("name", AStr name); ("spectra_config", AJson (JObj (sc_dump (fr_spec fr)))); ("spectra_config_name", AStr (fr_spec_name fr));
          ("fit_config", AJson2 dg ds); ("fit_config_name", AStr (gc_name (fr_fit fr)))] ++
  [WData None "penalty_terms" (gs_pen (fr_search fr)); WData None "stats" (gs_stats (fr_search fr));
   WAttr None "resets" (AInt (Z.of_nat (gs_resets (fr_search fr))))].
(** store.py:225-236: the subgroups of the fit results, [dec] is [str] *)
Fixpoint sub_writes (dec : nat -> string) (i : nat) (l : list (option gsearch)) : list write :=
  match l with
  | [] => []
  | o :: l' =>
      (WGroup (dec i) ::
       match o with
       | Some gs => [WAttr (Some (dec i)) "exists" (ANum 1); WData (Some (dec i)) "penalty_terms" (gs_pen gs); WData (Some (dec i)) "stats" (gs_stats gs);
                     WAttr (Some (dec i)) "resets" (AInt (Z.of_nat (gs_resets gs)))]
       | None => [WAttr (Some (dec i)) "exists" (ANum 0)]
       end) ++ sub_writes dec (S i) l'
  end.
(** store.py:203-223, dump_limit_results up to the datasets *)
Definition limit_head (lr : lresults) (dg ds : jdict) : list write :=
  wattrs [("name", AStr (lr_name lr)); ("spectra_config", AJson (JObj (sc_dump (lr_spec lr))));
          ("spectra_config_name", AStr (lr_spec_name lr));
          ("fit_config", AJson2 dg ds); ("fit_config_name", AStr (gc_name (lr_fit lr)));
          ("limit_config", AJson (JObj (sf_dump false (lr_limit lr))));
          ("limit_config_name", AStr (sf_name (lr_limit lr)));
          ("limit_config_spectra_name", AStr (sf_spectra (lr_limit lr)))] ++
  (if aany (lr_pen lr) then [WData None "penalty_terms" (lr_pen lr)] else []) ++
  (if aany (lr_best lr) then [WData None "best_fits" (lr_best lr)] else []) ++ [WData None "stats" (lr_stats lr)].
(** store.py:203-239, dump_limit_results *)
Definition limit_writes (dec : nat -> string) (lr : lresults) (dg ds : jdict) : list write :=
  limit_head lr dg ds ++
  (if existsb (fun o => match o with Some _ => true | None => false end) (lr_fits lr)
   then WAttr None "fits_exist" (ANum 1) :: sub_writes dec 0 (lr_fits lr)
   else [WAttr None "fits_exist" (ANum 0)]).

(** The file after n calls: h5py.File(...), the removal of the old group (if asked for), create_group, and
    the calls above; store.py:90-119, 162-180, 197-241 *)
Definition interrupted (n : nat) (f : hfile) (append overwrite : bool) (target : string) (ws : list write) : hfile :=
  match n with
  | O => f
  | S n1 =>
      let r := opened append f in
      match n1 with
      | O => Some r
      | S n2 =>
          let r := if overwrite && str_in target (dkeys (r_members r)) then Root (r_attrs r) (remove target (r_members r)) else r in
          match n2 with
          | O => Some r
          | S k => if str_in target (dkeys (r_members r)) then Some r else Some (put target (grown (firstn k ws)) r)
          end
      end
  end.
(** store.py:135-147, dump_ndarray interrupted after n attributes *)
Definition interrupted_object (n : nat) (f : hfile) (o : dict oattr) : hfile :=
  match n with O => f | S k => Some (fst (write_object (Root [] []) (firstn k o))) end.

(** Specification vocabulary for C21: what a history of calls would do if every spectrum
    were an independent value, and when two spectra share something. *)
From Verif Require Import Model.Base Model.PyStr Model.NDArray Model.Param Model.Config Model.Spectra
  Model.Smear Model.Shift Model.Heap.
From Verif Require Import Spec.ArraySpec Spec.SpectraSpec.

(** A world of independent values: spectrum number r is entry r of the list.  Each call
    changes at most the spectrum it is made on, or adds a new one. *)
Definition on_val (w : list spectra) (r : nat) (k : spectra -> list spectra * out) : list spectra * out :=
  match nth_error w r with Some s => k s | None => (w, Some EAttributeError) end.
Definition update (w : list spectra) (r : nat) (x : spectra * out) : list spectra * out :=
  (lset r (fst x) w, snd x).
Definition create (w : list spectra) (x : res spectra) : list spectra * out :=
  match x with Ok s => (w ++ [s], None) | Err e => (w, Some e) end.
Definition outcome {A} (x : res A) : out := match x with Ok _ => None | Err e => Some e end.
Definition w_step (a : call) (w : list spectra) : list spectra * out :=
  match a with
  | CNew name n c bg => create w (new_spectra name n c bg)
  | CNewOn name n r bg => on_val w r (fun s => create w (new_spectra name n (s_cfg s) bg))
  | CCopy r => on_val w r (fun s => create w (Ok s))
  | CDerive d r => on_val w r (fun s => create w (derive d s))
  | CFill v kw r => on_val w r (fun s => update w r (fill v kw s))
  | CAdd r2 r => on_val w r2 (fun s2 => on_val w r (fun s => update w r (s_add s2 s)))
  | CScale n r => on_val w r (fun s => update w r (scale n s))
  | CRebin bins r => on_val w r (fun s => update w r (rebin bins s))
  | CShrink kw r => on_val w r (fun s => update w r (shrink kw s))
  | CCut kw r => on_val w r (fun s => update w r (cut kw s))
  | CRoi lo hi dim r => on_val w r (fun s => update w r (shrink_to_roi lo hi dim s))
  | CName r => on_val w r (fun s => update w r (fst (get_background_name s), outcome (snd (get_background_name s))))
  end.
Fixpoint w_run (l : list call) (w : list spectra) : list spectra * list out :=
  match l with
  | [] => (w, [])
  | a :: l' =>
      let (w1, e) := w_step a w in
      let (w2, es) := w_run l' w1 in
      (w2, e :: es)
  end.

(** Every spectrum of the program looks like the corresponding independent value. *)
Definition agrees (h : heap) (w : list spectra) : Prop :=
  length (h_objs h) = length w /\
  forall r s, nth_error w r = Some s -> exists s', abs h r = Some s' /\ same_spectra s' s.

(** All references of a heap exist and every window lies inside its buffer. *)
Definition wf_obj (h : heap) (o : hspec) : Prop :=
  (o_cfg o < length (h_cfgs h))%nat /\ (o_rois o < length (h_roid h))%nat /\
  exists b, nth_error (h_bufs h) (o_buf o) = Some b /\
            Forall2 (fun on n => (fst on + snd on <= n)%nat) (o_view o) (ashape b).
Definition wf_heap (h : heap) : Prop := forall r o, nth_error (h_objs h) r = Some o -> wf_obj h o.

(** The spectrum a call is made on, and what the call changes in place. *)
Definition target (a : call) : option nat :=
  match a with
  | CNew _ _ _ _ | CNewOn _ _ _ _ | CCopy _ | CDerive _ _ => None
  | CFill _ _ r | CAdd _ r | CScale _ r | CRebin _ r | CShrink _ r | CCut _ r | CRoi _ _ _ r | CName r => Some r
  end.
Definition resizes (a : call) : bool :=
  match a with CRebin _ _ | CShrink _ _ | CCut _ _ | CRoi _ _ _ _ => true | _ => false end.
Definition adds_entries (a : call) : bool :=
  match a with CFill _ _ _ | CAdd _ _ => true | _ => false end.
Definition records_roi (a : call) : bool :=
  match a with CRoi _ _ _ _ => true | _ => false end.

(** The call on [o] cannot be seen through [o']: what it changes is not shared. *)
Definition unshared (a : call) (o o' : hspec) : Prop :=
  (resizes a = true -> o_cfg o <> o_cfg o') /\
  (adds_entries a = true -> o_buf o <> o_buf o') /\
  (records_roi a = true -> o_rois o <> o_rois o').
Definition exclusive (a : call) (h : heap) : Prop :=
  forall r r' o o', target a = Some r -> r' <> r ->
    nth_error (h_objs h) r = Some o -> nth_error (h_objs h) r' = Some o' -> unshared a o o'.
(** ... at every step of a history. *)
Fixpoint all_exclusive (l : list call) (h : heap) : Prop :=
  match l with
  | [] => True
  | a :: l' => exclusive a h /\ all_exclusive l' (fst (h_step a h))
  end.

(** Every spectrum is made with a configuration of its own: no copies, no smeared or
    shifted versions. *)
Definition own_config (a : call) : bool :=
  match a with CNewOn _ _ _ _ | CCopy _ | CDerive _ _ => false | _ => true end.
(** No copy.copy by the caller, and nothing that changes bounds or binning. *)
Definition no_resize (a : call) : bool :=
  match a with CCopy _ => false | _ => negb (resizes a) end.

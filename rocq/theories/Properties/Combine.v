(** C54: merging files with combine_hdf5.  [pf] and [e] stand for float(text) and numpy.e,
    which only files of the old layout use. *)
From Coq Require Import Permutation.
From Verif Require Import Model.Base Model.PyStr Model.NDArray Model.Param Model.Config Model.Spectra Model.FitConfig Model.Store Model.Combine.
From Verif Require Import Spec.ArraySpec Spec.SpectraSpec Spec.ConfigSpec Spec.StoreSpec Spec.CombineSpec.
From Verif Require Import Proofs.QcLemmas Proofs.ConfigLemmas Proofs.CombineLemmas.
Local Open Scope string_scope.

(** A run without exception: the new file holds the totals of all the files given, on the
    axes of the first, and no other file changes. *)
Theorem C54_total : forall pf e fs files fs',
  combine pf e fs files = (fs', None) ->
  (forall f s, In f files -> load pf e (fs f) = Ok s -> spectrum_storable s) ->
  (2 <= length files)%nat /\
  exists ss out, Forall2 (fun f s => load pf e (fs f) = Ok s) files ss /\
    load pf e (fs' "combined.hdf5") = Ok out /\ is_total (st_spec out) (map st_spec ss) /\
    (forall f, f <> "combined.hdf5" -> fs' f = fs f) /\
    match ss with
    | [] => False
    | s :: _ => ashape (s_data (st_spec out)) = ashape (s_data (st_spec s)) /\
                s_name (st_spec out) = s_name (st_spec s) /\ s_cfg (st_spec out) = s_cfg (st_spec s)
    end.
Proof. exact combine_total_l. Qed.
(** Spectra that can all be added to each other: the run succeeds in every order, with the
    same result. *)
Theorem C54_order : forall pf e fs files files' ss,
  (2 <= length files)%nat -> Permutation files files' ->
  Forall2 (fun f s => load pf e (fs f) = Ok s) files ss -> compatible ss -> Forall good_file ss ->
  exists fs1 fs2 a b,
    combine pf e fs files = (fs1, None) /\ combine pf e fs files' = (fs2, None) /\
    load pf e (fs1 "combined.hdf5") = Ok a /\ load pf e (fs2 "combined.hdf5") = Ok b /\
    ashape (s_data (st_spec a)) = ashape (s_data (st_spec b)) /\
    (forall idx, aget (s_data (st_spec a)) idx = aget (s_data (st_spec b)) idx) /\
    s_decays (st_spec a) = s_decays (st_spec b) /\ s_raw (st_spec a) = s_raw (st_spec b).
Proof. exact combine_order_l. Qed.
(** A run that fails on good files (one of them cannot be read or added) writes nothing. *)
Theorem C54_rejected : forall pf e fs files fs' x,
  combine pf e fs files = (fs', Some x) ->
  (forall ss, Forall2 (fun f s => load pf e (fs f) = Ok s) files ss -> Forall good_file ss) -> fs' = fs.
Proof. exact combine_rejected_l. Qed.

Definition spec1 (name : string) (high : Qc) (content : Qc) (decays : Qc) (raw : Z) : stored :=
  Stored (Spec name (Some "Te130") [("energy_mc", SPar 0 high 4)] (ND [4%nat] (fun _ => content)) decays raw 0 []) "config" None
         (JObj [("color", JStr "red")]).
Definition file1 (s : stored) : hfile := fst (fst (dump None s false false)).
Definition three (p : string) : hfile :=
  if String.eqb p "a" then file1 (spec1 "a_mc" (zq 10) 1 (zq 5) 2)
  else if String.eqb p "b" then file1 (spec1 "b_mc" (zq 10) (qq 1 2) (zq 7) 11)
  else if String.eqb p "c" then file1 (spec1 "c_mc" (zq 10) (zq 3) (qq 1 3) 0)
  else None.
Lemma good1 name content decays raw : good_file (spec1 name (zq 10) content decays raw).
Proof.
  split; [|split; [discriminate|now exists "Te130"]]. repeat split; try discriminate.
  - apply (sbuilt_par [] "energy_mc" (SPar 0 (zq 10) 4)), sbuilt_new.
  - cbn. repeat constructor. discriminate.
Qed.
Example C54_ex : forall pf e, exists ss, Forall2 (fun f s => load pf e (three f) = Ok s) ["a"; "b"; "c"] ss /\
  compatible ss /\ Forall good_file ss /\ Permutation ["a"; "b"; "c"] ["c"; "a"; "b"].
Proof.
  intros. exists [spec1 "a_mc" (zq 10) 1 (zq 5) 2; spec1 "b_mc" (zq 10) (qq 1 2) (zq 7) 11; spec1 "c_mc" (zq 10) (zq 3) (qq 1 3) 0].
  split; [|split; [|split]].
  - repeat constructor; vm_compute; reflexivity.
  - intros s t Hs Ht. cbn in Hs, Ht. decompose [or] Hs; decompose [or] Ht; subst; try tauto; vm_compute; reflexivity.
  - repeat (apply Forall_cons; [apply good1|]); apply Forall_nil.
  - apply Permutation_sym. apply (Permutation_cons_app ["a"; "b"] [] "c"). reflexivity.
Qed.
(** The tolerance of add is relative to the spectrum that is added.  Two files that can be
    merged in one order only: *)
Definition two (p : string) : hfile :=
  if String.eqb p "a" then file1 (spec1 "a_mc" 1 1 (zq 5) 2)
  else if String.eqb p "b" then file1 (spec1 "b_mc" (1 + qq 1001 100000000 + qq 5 100000000000)%Qc (qq 1 2) (zq 7) 11)
  else None.
Theorem C54_order_refuted : forall pf e, snd (combine pf e two ["a"; "b"]) = None /\ snd (combine pf e two ["b"; "a"]) = Some EValueError.
Proof. intros. split; vm_compute; reflexivity. Qed.

Print Assumptions C54_total.
Print Assumptions C54_order.
Print Assumptions C54_rejected.
Print Assumptions C54_order_refuted.

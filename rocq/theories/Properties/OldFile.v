(** C94: files of the old format. *)
From Coq Require Import Lia Permutation.
From Verif Require Import Model.Base Model.PyStr Model.NDArray Model.Param Model.Config Model.Spectra Model.FitParam Model.FitConfig Model.Store.
From Verif Require Import Spec.NameSpec Spec.StoreSpec Spec.OldFileSpec.
From Verif Require Import Proofs.DictLemmas Proofs.StoreLemmas Proofs.OldFile.
Local Open Scope string_scope.
Local Open Scope list_scope.

(** A file of the old format loads as its spectrum, with the axes in the order in which the
    attributes of the file mention them, the default name of the configuration, no fit
    configuration and the style of the text. *)
Theorem C94_loads_partial : forall parse_float e r s text style, old_file r s text -> style_read parse_float text style ->
  exists c, load parse_float e (Some r) = Ok (Stored (with_axes s c) "spectral_config" None style) /\
    Permutation c (s_cfg s) /\ first_mentioned (dkeys (r_attrs r)) c.
Proof. intros pf e r s text style OF. exact (load_old_l r s text OF pf e style). Qed.
(** That order leaves no choice. *)
Theorem C94_one_order : forall keys (c c' : sconfig), NoDup (map fst c) -> Permutation c c' -> first_mentioned keys c -> first_mentioned keys c' -> c = c'.
Proof. exact order_unique. Qed.
(** When the axes are first mentioned in their order, the spectrum is the one that was written. *)
Theorem C94_in_order : forall parse_float e r s text style, old_file r s text -> style_read parse_float text style ->
  first_mentioned (dkeys (r_attrs r)) (s_cfg s) -> load parse_float e (Some r) = Ok (Stored (with_axes s (s_cfg s)) "spectral_config" None style).
Proof. intros. now apply (load_ordered_l r s text). Qed.
(** The style of a dictionary that was written with [dict_to_string]. *)
Theorem C94_style : forall str_float parse_float d text, d <> [] -> NoDup (dkeys d) -> Forall (storable str_float parse_float) d ->
  dict_to_string str_float d = Ok text -> text <> "" -> style_read parse_float text (plain_style d).
Proof.
  intros sf pf d text N ND F E T. right. split; [exact T|]. exists d. split; [|reflexivity]. destruct (roundtrip_l sf pf d N ND F) as (t & E2 & R). rewrite E in E2. injection E2 as <-. exact R.
Qed.
(** No file, and a file of neither format. *)
Theorem C94_no_file : forall parse_float e, load parse_float e None = Err EIOError.
Proof. reflexivity. Qed.
Theorem C94_neither : forall parse_float e r, dget "spectrum" (r_members r) = None ->
  (forall k, In k (dkeys (r_attrs r)) -> starts_with "pars:" k = false) ->
  (dget "name" (r_attrs r) = None \/ dget "num_decays" (r_attrs r) = None \/ dget "raw_events" (r_attrs r) = None) ->
  (forall x, dget "name" (r_attrs r) = Some x -> exists n, x = AStr n) -> (forall x, dget "num_decays" (r_attrs r) = Some x -> exists n, x = ANum n) ->
  load parse_float e (Some r) = Err EKeyError.
Proof. exact neither_l. Qed.

(** ** An old file *)
Definition old_data : ndarray := ND [2; 3] (fun ix => match ix with [i; j] => zq (Z.of_nat (10 * i + j)) | _ => 0%Qc end).
Definition old_spec : spectra :=
  Spec "Te130" None [("radial_mc", SPar 0 (zq 6) 2); ("energy_mc", SPar (zq 1) (zq 4) 3)] old_data (zq 100) 50 1 [].
(** The attributes in the order in which they were written, and by name. *)
Definition as_written : root := Root [("pars:radial_mc:low", ANum 0%Qc); ("pars:radial_mc:high", ANum (zq 6)); ("pars:radial_mc:bins", AInt 2);
  ("pars:energy_mc:low", ANum (zq 1)); ("pars:energy_mc:high", ANum (zq 4)); ("pars:energy_mc:bins", AInt 3);
  ("name", AStr "Te130"); ("num_decays", ANum (zq 100)); ("raw_events", AInt 50); ("bipo", AInt 1); ("style", AStr "color:red;str"); ("rois", AStr "")]
  [("data", HData old_data)].
Definition by_name : root := Root [("bipo", AInt 1); ("name", AStr "Te130"); ("num_decays", ANum (zq 100));
  ("pars:energy_mc:bins", AInt 3); ("pars:energy_mc:high", ANum (zq 4)); ("pars:energy_mc:low", ANum (zq 1));
  ("pars:radial_mc:bins", AInt 2); ("pars:radial_mc:high", ANum (zq 6)); ("pars:radial_mc:low", ANum 0%Qc);
  ("raw_events", AInt 50); ("rois", AStr ""); ("style", AStr "color:red;str")]
  [("data", HData old_data)].
Ltac old_file_tac := constructor; [reflexivity|reflexivity|repeat constructor; cbn; intuition discriminate|reflexivity|reflexivity|reflexivity|left; reflexivity|reflexivity|split; reflexivity| | |];
  [intros axis p [E|[E|[]]]; injection E as <- <-; repeat split; reflexivity
  |intros key I S; cbn in I; repeat (destruct I as [<-|I]; [first [discriminate S|exists "radial_mc"; split; [cbn; tauto|unfold mentions; cbn; tauto]|exists "energy_mc"; split; [cbn; tauto|unfold mentions; cbn; tauto]]|]); destruct I
  |split; [repeat constructor; cbn; intuition discriminate|repeat constructor; cbn; discriminate]].
Example C94_sat : old_file as_written old_spec "color:red;str" /\ old_file by_name old_spec "color:red;str" /\
  (forall pf, style_read pf "color:red;str" (plain_style [("color", VStr "red")])).
Proof.
  split; [old_file_tac|]. split; [old_file_tac|]. intro pf. right. split; [discriminate|]. eexists. split; reflexivity.
Qed.
Example C94_sat_order : first_mentioned (dkeys (r_attrs as_written)) (s_cfg old_spec).
Proof.
  intros i j v w L Ei Ej. destruct i as [|[|i]], j as [|[|j]]; cbn in Ei, Ej; try lia; try discriminate; try (destruct i; discriminate); try (destruct j; discriminate).
  injection Ei as <-. injection Ej as <-. exists 0, "pars:radial_mc:low". split; [reflexivity|]. split; [cbn; auto|].
  intros [|m] k' E M; [|lia]. injection E as <-. destruct M as [M|[M|[M|[]]]]; discriminate M.
Qed.
(** By name the axes change places, and no longer match the data. *)
Theorem C94_order_refuted : forall parse_float e, exists r s text c, old_file r s text /\
  load parse_float e (Some r) = Ok (Stored (with_axes s c) "spectral_config" None (plain_style [("color", VStr "red")])) /\
  map Z.to_nat (get_shape (s_cfg s)) = ashape (s_data s) /\ map Z.to_nat (get_shape c) <> ashape (s_data s).
Proof.
  intros. exists by_name, old_spec, "color:red;str", [("energy_mc", SPar (zq 1) (zq 4) 3); ("radial_mc", SPar 0 (zq 6) 2)].
  split; [exact (proj1 (proj2 C94_sat))|]. split; [reflexivity|]. split; [reflexivity|]. cbn. discriminate.
Qed.
Example C94_sat_neither : forall pf e, load pf e (Some (Root [("name", AStr "Te130")] [])) = Err EKeyError.
Proof. reflexivity. Qed.

Print Assumptions C94_loads_partial.
Print Assumptions C94_one_order.
Print Assumptions C94_in_order.
Print Assumptions C94_style.
Print Assumptions C94_no_file.
Print Assumptions C94_neither.
Print Assumptions C94_order_refuted.

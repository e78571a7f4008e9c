(** Vocabulary for merging files. *)
From Verif Require Import Model.Base Model.NDArray Model.Config Model.Spectra Model.Store Spec.StoreSpec.

(** [total f l]: the sum of a quantity over a list of spectra. *)
Definition total (f : spectra -> Qc) (l : list spectra) : Qc := qsum (map f l).
Definition total_int (f : spectra -> Z) (l : list spectra) : Z := fold_right Z.add 0%Z (map f l).
(** Every spectrum of the list can be added to every other, can be stored, and has a
    background name. *)
Definition compatible (l : list stored) : Prop :=
  forall s t, In s l -> In t l -> snd (s_add (st_spec t) (st_spec s)) = None.
Definition good_file (s : stored) : Prop :=
  spectrum_storable s /\ ashape (s_data (st_spec s)) <> [] /\ exists bg, snd (get_background_name (st_spec s)) = Ok bg.
(** [s] holds the sums of the contents, decays and events of the spectra of the list. *)
Definition is_total (s : spectra) (l : list spectra) : Prop :=
  (forall idx, aget (s_data s) idx = total (fun t => aget (s_data t) idx) l) /\
  s_decays s = total s_decays l /\ s_raw s = total_int s_raw l.

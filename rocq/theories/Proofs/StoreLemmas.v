(** Strings and files of echidna/output/store.py. *)
From Coq Require Import Lia DecimalString DecimalZ.
From Verif Require Import Model.Base Model.PyStr Model.NDArray Model.Param Model.Config Model.Spectra.
From Verif Require Import Model.FitParam Model.FitConfig Model.Minimise Model.Store.
From Verif Require Import Spec.NameSpec Spec.ConfigSpec Spec.StoreSpec.
From Verif Require Import Proofs.DictLemmas Proofs.StrLemmas Proofs.NameLemmas Proofs.PreConvLemmas Proofs.ConfigLemmas.
Local Open Scope string_scope.
Local Open Scope list_scope.

(** ** Integers as strings *)
Lemma parse_str_int z : parse_int (str_int z) = Ok z.
Proof.
  unfold parse_int, str_int. rewrite <- (of_to z) at 2. destruct (Z.to_int z) as [d|d].
  - destruct d; try (rewrite NilZero.isi by discriminate; reflexivity). reflexivity.
  - destruct d; try (rewrite NilZero.isi by discriminate; reflexivity). reflexivity.
Qed.
Definition punct (c : ascii) : Prop := c = ","%char \/ c = ":"%char \/ c = ";"%char.
Lemma uint_chars c d : punct c -> occurs c (NilEmpty.string_of_uint d) = false.
Proof.
  intros [->|[->| ->]]; induction d as [|d IH|d IH|d IH|d IH|d IH|d IH|d IH|d IH|d IH|d IH];
    cbn [NilEmpty.string_of_uint occurs]; try rewrite IH; reflexivity.
Qed.
Lemma int_chars c z : punct c -> occurs c (str_int z) = false.
Proof.
  intro P. unfold str_int. assert (U : forall d, occurs c (NilZero.string_of_uint d) = false).
  { intro d. unfold NilZero.string_of_uint. destruct d; try (apply (uint_chars c _ P)). destruct P as [->|[->| ->]]; reflexivity. }
  destruct (Z.to_int z) as [d|d]; cbn [NilZero.string_of_int]; [apply U|]. cbn [occurs]. rewrite U.
  destruct P as [->|[->| ->]]; reflexivity.
Qed.
Lemma plain_int z : plain (str_int z).
Proof. repeat split; apply int_chars; unfold punct; auto. Qed.

Section Str.
Variable str_float : Qc -> string.
Variable parse_float : string -> res Qc.
Notation storable := (storable str_float parse_float).
Notation entry_string := (entry_string str_float).
Notation entries_string := (entries_string str_float).
Notation read_entry := (read_entry parse_float).
Notation read_entries := (read_entries parse_float).

(** The text of an entry without its comma. *)
Definition vtext (v : pyval) : string :=
  match v with VStr s => s | VInt z => str_int z | VFloat x => str_float x | VOther => "" end.
Definition vtype (v : pyval) : string :=
  match v with VStr _ => "str" | VInt _ => "int" | VFloat _ => "float" | VOther => "" end.
Definition etext (kv : string * pyval) : string := (fst kv ++ ":" ++ vtext (snd kv) ++ ";" ++ vtype (snd kv))%string.
Lemma vtext_plain kv : storable kv -> plain (vtext (snd kv)).
Proof. intros [_ H]. destruct (snd kv); cbn in *; try exact H; [apply plain_int|apply H|contradiction]. Qed.
Lemma entry_ok kv : storable kv -> entry_string kv = Ok (etext kv ++ ",")%string.
Proof.
  intros [_ H]. unfold Store.entry_string, etext. destruct kv as [k []]; cbn in *; try contradiction;
    rewrite !sapp_assoc; cbn; rewrite sapp_assoc; reflexivity.
Qed.
Lemma part0 c a b : occurs c a = false -> nth_part 0 c (a ++ String c b) = Ok a.
Proof. intro H. rewrite occurs_has in H. unfold nth_part. rewrite split_app, (split_none _ _ H). reflexivity. Qed.
Lemma part1 c a b : occurs c a = false -> occurs c b = false -> nth_part 1 c (a ++ String c b) = Ok b.
Proof.
  intros H K. rewrite occurs_has in H, K. unfold nth_part. now rewrite split_app, (split_none _ _ H), (split_none _ _ K).
Qed.
Lemma read_entry_ok kv : storable kv -> read_entry (etext kv) = Ok kv.
Proof.
  intro S. assert (V := vtext_plain kv S). destruct S as [(K1 & K2 & K3) S]. destruct kv as [k v]. cbn [fst snd] in *.
  destruct V as (V1 & V2 & V3). unfold Store.read_entry, etext. cbn [fst snd].
  assert (T : plain (vtype v)) by (destruct v; repeat split; reflexivity). destruct T as (T1 & T2 & T3).
  assert (E1 : (k ++ ":" ++ vtext v ++ ";" ++ vtype v)%string = (k ++ String ":" (vtext v ++ String ";" (vtype v)))%string) by reflexivity.
  assert (E2 : (k ++ ":" ++ vtext v ++ ";" ++ vtype v)%string = ((k ++ ":" ++ vtext v) ++ String ";" (vtype v))%string).
  { rewrite !sapp_assoc. reflexivity. }
  set (w := (k ++ ":" ++ vtext v ++ ";" ++ vtype v)%string) in *.
  assert (P0 : nth_part 0 ":" w = Ok k) by (rewrite E1; apply (part0 _ _ _ K2)).
  assert (P1 : nth_part 1 ":" w = Ok (vtext v ++ String ";" (vtype v))%string).
  { rewrite E1. apply part1; [exact K2|]. rewrite occurs_app. cbn. now rewrite V2, T2. }
  assert (P2 : nth_part 1 ";" w = Ok (vtype v)).
  { rewrite E2. apply part1; [|exact T3]. rewrite !occurs_app. cbn. now rewrite K3, V3. }
  rewrite P0, P1. cbn [rbind]. rewrite (part0 _ _ _ V3). cbn [rbind]. rewrite P2. cbn [rbind].
  destruct v; cbn in *.
  - reflexivity.
  - now rewrite parse_str_int.
  - destruct S as [_ ->]. reflexivity.
  - contradiction.
Qed.
Lemma etext_nocomma kv : storable kv -> occurs "," (etext kv) = false.
Proof.
  intro S. assert (V := vtext_plain kv S). destruct S as [(K1 & _) _]. destruct V as (V1 & _).
  unfold etext. rewrite !occurs_app, K1, V1. cbn. destruct (snd kv); reflexivity.
Qed.
Lemma join_snoc_comma l x : join "," (l ++ [x]) = match l with [] => x | _ => (join "," l ++ "," ++ x)%string end.
Proof.
  induction l as [|y l IH]; [reflexivity|]. cbn [app]. rewrite join_cons by (destruct l; discriminate). rewrite IH.
  destruct l as [|z l]; [reflexivity|]. rewrite (join_cons _ y (z :: l)) by discriminate. rewrite !sapp_assoc. reflexivity.
Qed.
Lemma entries_ok d : d <> [] -> Forall storable d -> entries_string d = Ok (join "," (map etext d) ++ ",")%string.
Proof.
  intros N F. induction F as [|kv d K F IH]; [congruence|]. cbn [Store.entries_string]. rewrite (entry_ok _ K). cbn [rbind].
  destruct d as [|kv' d].
  - cbn. now rewrite sapp_nil.
  - rewrite IH by discriminate. cbn [rbind]. f_equal. change (map etext (kv :: kv' :: d)) with (etext kv :: map etext (kv' :: d)).
    rewrite join_cons by discriminate. rewrite !sapp_assoc. reflexivity.
Qed.
Lemma split_join_comma l : l <> [] -> Forall (fun x => occurs "," x = false) l -> split_char "," (join "," l) = l.
Proof.
  intros N F. induction F as [|x l X F IH]; [congruence|]. rewrite occurs_has in X. destruct l as [|y l].
  - cbn. now apply split_none.
  - rewrite join_cons by discriminate. cbn [append]. rewrite split_app, (split_none _ _ X). rewrite IH by discriminate. reflexivity.
Qed.
Lemma read_entries_ok : forall d acc, NoDup (dkeys acc ++ dkeys d) -> Forall storable d ->
  read_entries acc (map etext d) = Ok (acc ++ d).
Proof.
  induction d as [|kv d IH]; intros acc N F; cbn [map Store.read_entries]; [now rewrite app_nil_r|].
  inversion F as [|? ? K F']; subst. rewrite (read_entry_ok _ K). cbn [rbind]. destruct kv as [k v]. cbn [fst snd].
  assert (Fr : ~ In k (dkeys acc)).
  { cbn [dkeys map fst] in N. apply NoDup_remove_2 in N. intro X. apply N, in_or_app. now left. }
  rewrite dset_fresh by exact Fr. rewrite IH; [now rewrite <- app_assoc| |exact F'].
  rewrite dkeys_app. cbn. rewrite <- app_assoc. exact N.
Qed.
Lemma roundtrip_l d : d <> [] -> NoDup (dkeys d) -> Forall storable d ->
  exists s, dict_to_string str_float d = Ok s /\ string_to_dict parse_float s = Ok d.
Proof.
  intros N ND F. exists (join "," (map etext d)). unfold dict_to_string. rewrite (entries_ok _ N F). cbn [rmap]. split.
  - f_equal. apply drop_last_app. reflexivity.
  - unfold string_to_dict. rewrite split_join_comma.
    + now rewrite read_entries_ok.
    + destruct d; [congruence|discriminate].
    + apply Forall_forall. intros x X. apply in_map_iff in X as (kv & <- & X). rewrite Forall_forall in F. now apply etext_nocomma, F.
Qed.
Lemma other_l d : (exists k, In (k, VOther) d) -> dict_to_string str_float d = Err ETypeError.
Proof.
  intros [k I]. unfold dict_to_string. enough (E : entries_string d = Err ETypeError) by now rewrite E.
  induction d as [|[k' v] d IH]; [destruct I|]. cbn [Store.entries_string]. destruct I as [I|I].
  - injection I as -> ->. reflexivity.
  - rewrite (IH I). destruct v; reflexivity.
Qed.
End Str.

(** ** Attributes *)
Lemma find_attr (a : dict hattr) k v : dget k a = Some v -> attr k a = Ok v.
Proof. unfold attr, dlookup. now intros ->. Qed.

Lemma json_rois_ok d : json_rois (map (fun kr => (fst kr, roi_json (snd kr))) d) = Ok d.
Proof. induction d as [|[k [a b c]] d IH]; [reflexivity|]. cbn. rewrite IH. reflexivity. Qed.
Lemma dget_put_new k o r : ~ In k (dkeys (r_members r)) -> dget k (r_members (put k o r)) = Some o.
Proof.
  unfold put. cbn. induction (r_members r) as [|[k' v] m IH]; cbn; intro N; [now rewrite String.eqb_refl|].
  destruct (String.eqb_spec k k') as [->|]; [exfalso; apply N; now left|]. apply IH. tauto.
Qed.
Lemma dget_put_other k k' o r : k <> k' -> dget k (r_members (put k' o r)) = dget k (r_members r).
Proof.
  intro N. unfold put. cbn. induction (r_members r) as [|[k2 v] m IH]; cbn.
  - now apply String.eqb_neq in N as ->.
  - now rewrite IH.
Qed.
Lemma dget_remove {A} k k' (d : dict A) : k <> k' -> dget k (remove k' d) = dget k d.
Proof.
  intro N. unfold remove. induction d as [|[k2 v] d IH]; [reflexivity|]. cbn [filter fst].
  destruct (String.eqb_spec k2 k') as [->|M]; cbn [negb dget]; rewrite IH; [|reflexivity].
  apply String.eqb_neq in N. now rewrite N.
Qed.
Lemma remove_gone {A} k (d : dict A) : ~ In k (dkeys (remove k d)).
Proof.
  intro I. apply in_map_iff in I as ([k' v] & E & I). apply filter_In in I as [_ I]. cbn in *. subst. now rewrite String.eqb_refl in I.
Qed.

(** The file before the group is created. *)
Definition cleared (append overwrite : bool) (f : hfile) : root :=
  let r := opened append f in
  if overwrite && str_in "spectrum" (dkeys (r_members r)) then Root (r_attrs r) (remove "spectrum" (r_members r)) else r.
Lemma dump_unfold f s append overwrite :
  dump f s append overwrite =
    let r := cleared append overwrite f in
    if str_in "spectrum" (dkeys (r_members r)) then (Some r, s, Some EValueError)
    else
      let s' := with_spec s (fst (get_background_name (st_spec s))) in
      match snd (get_background_name (st_spec s)) with
      | Err e => (Some (put "spectrum" (HGroup [("name", AStr (s_name (st_spec s')))] []) r), s', Some e)
      | Ok bg =>
          if filterable (s_data (st_spec s'))
          then (Some (put "spectrum" (HGroup (spectrum_attrs s' bg) [("data", HData (s_data (st_spec s')))]) r), s', None)
          else (Some (put "spectrum" (HGroup (spectrum_attrs s' bg) []) r), s', Some ETypeError)
      end.
Proof.
  unfold dump. fold (cleared append overwrite f). cbn zeta. destruct (str_in _ _); [reflexivity|].
  destruct (get_background_name (st_spec s)) as [sp bg]. reflexivity.
Qed.
Lemma name_frame s : let s' := fst (get_background_name s) in
  s_name s' = s_name s /\ s_cfg s' = s_cfg s /\ s_data s' = s_data s /\ s_decays s' = s_decays s /\
  s_raw s' = s_raw s /\ s_bipo s' = s_bipo s /\ s_rois s' = s_rois s.
Proof.
  unfold get_background_name. destruct (s_bg s) as [[|a b]|]; cbn;
    repeat (destruct (contains _ _); [cbn; repeat split|]); cbn; repeat split.
Qed.
Lemma name_sets s s' b : get_background_name s = (s', Ok b) -> s_bg s' = Some b.
Proof.
  unfold get_background_name. destruct (s_bg s) as [[|a c]|] eqn:E; cbn;
    try (intro H; injection H as <- <-; exact E);
    repeat (destruct (contains _ _); [intro H; injection H as <- <-; reflexivity|]); discriminate.
Qed.

Lemma shape_ok c : Forall (fun b => (0 <= b)%Z) (get_shape c) -> forallb (fun b => (0 <=? b)%Z) (get_shape c) = true.
Proof. intro F. apply forallb_forall. intros b B. rewrite Forall_forall in F. apply Z.leb_le. now apply F. Qed.

Lemma load_dump_l str_float e f s append overwrite f' s' :
  dump f s append overwrite = (f', s', None) -> spectrum_storable s ->
  exists bg, get_background_name (st_spec s) = (st_spec s', Ok bg) /\
    load str_float e f' =
      Ok (Stored (Spec (s_name (st_spec s)) (Some bg) (s_cfg (st_spec s)) (s_data (st_spec s)) (s_decays (st_spec s))
                       (s_raw (st_spec s)) (s_bipo (st_spec s)) (s_rois (st_spec s)))
                 (st_cfg_name s) (fit_again (s_name (st_spec s)) (st_fit s)) (st_style s)).
Proof.
  rewrite dump_unfold. cbn zeta. set (r := cleared append overwrite f).
  destruct (str_in "spectrum" (dkeys (r_members r))) eqn:I; [discriminate|]. apply str_in_false in I.
  assert (NF := name_frame (st_spec s)). destruct (get_background_name (st_spec s)) as [sp [bg|x]] eqn:G; cbn [fst snd] in *; [|discriminate].
  destruct (filterable _); [|discriminate]. intro H. injection H as <- <-. intros (B & NE & Sh & Fi & S1 & S2).
  exists bg. split; [reflexivity|]. destruct NF as (E1 & E2 & E3 & E4 & E5 & E6 & E7).
  cbn [with_spec st_spec]. unfold load, load_new.
  unfold get_group at 1. unfold dlookup at 1. rewrite (dget_put_new _ _ _ I). cbn [rbind fst snd].
  assert (CL := sc_roundtrip _ NE (sbuilt_nodup _ B)).
  unfold spectrum_attrs. cbn [with_spec st_spec st_fit st_style st_cfg_name]. rewrite E1, E2, E3, E4, E5, E6, E7.
  assert (ST : empty_style (st_style s) = false).
  { destruct (st_style s) as [| | | |[]|[]]; try reflexivity; congruence. }
  rewrite ST.
  assert (RO : match (match s_rois (st_spec s) with [] => AStr "" | _ => AJson (rois_json (s_rois (st_spec s))) end) with
      | AStr "" => Ok [] | AJson (JObj d) => json_rois d | _ => Err ETypeError end = Ok (s_rois (st_spec s))).
  { destruct (s_rois (st_spec s)) eqn:R; [reflexivity|]. rewrite <- R. apply json_rois_ok. }
  destruct (st_fit s) as [c|] eqn:F.
  - destruct Fi as (F1 & F2 & F3). assert (FL := sf_roundtrip e false c F1 F2 F3).
    unfold attr_str, attr_num, attr_int, attr_json, attr, dlookup. cbn [app dget String.eqb Ascii.eqb Bool.eqb rbind].
    rewrite CL. cbn [rbind on_key_error].
    assert (FL' : sf_load e (sf_dump false c) (s_name (st_spec s)) (sf_name c) =
       Ok (SFC (sf_name c) (s_name (st_spec s)) (map (fun kp => (fst kp, again false (fst kp) (snd kp))) (sf_pars c)))).
    { unfold sf_load in *. destruct (section _ _); [|discriminate]. cbn [rbind] in *. destruct (load_all _ _ _); [|discriminate].
      cbn [rbind] in *. injection FL as <-. reflexivity. }
    rewrite FL'. cbn [rmap on_key_error rbind]. unfold new_spectra. rewrite (shape_ok _ Sh). cbn [rbind s_name s_bg s_cfg s_decays].
    rewrite RO. cbn [rbind]. unfold get_data, dlookup. cbn. reflexivity.
  - unfold attr_str, attr_num, attr_int, attr_json, attr, dlookup. cbn [app dget String.eqb Ascii.eqb Bool.eqb rbind].
    rewrite CL. cbn [rbind on_key_error].
    unfold new_spectra. rewrite (shape_ok _ Sh). cbn [rbind s_name s_bg s_cfg s_decays].
    rewrite RO. cbn [rbind]. unfold get_data, dlookup. cbn. reflexivity.
Qed.

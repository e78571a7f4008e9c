(** echidna/core/fill_spectrum.py: filling spectra from event streams.
    An event stream is the list of the entries ROOT hands out (TChain, DSReader are
    outside the model).  An extractor is a name, a validity test (which may raise) and a
    value; Model/DSExtract.v models the extractors of dsextract.py. *)
From Verif Require Import Model.Base Model.PyStr Model.NDArray Model.Param Model.Config Model.Spectra.
Local Open Scope string_scope.

(** What fill_spectrum.py uses of an extractor (dsextract.py): its name, get_valid_* and get_value_*.
    fill_spectrum.py:36-41, 97-103, 133-139 *)
Record extractor (E : Type) := Ext {
  ex_name : string;
  ex_valid : E -> res bool;
  ex_value : E -> Qc }.
Arguments Ext {E}. Arguments ex_name {E}. Arguments ex_valid {E}. Arguments ex_value {E}.

(** fill_spectrum.py:228-229, 279-280: spectrum._bipo = 1 *)
Definition with_bipo (s : spectra) (b : Z) : spectra :=
  Spec (s_name s) (s_bg s) (s_cfg s) (s_data s) (s_decays s) (s_raw s) b (s_rois s).

(** fill_spectrum.py:296-300 (and 38-42, 98-102, 134-138, 169-173):
    try: spectrum.fill; spectrum._raw_events += 1; except ValueError: pass *)
Definition try_fill (kw : dict Qc) (s : spectra) : spectra * out :=
  match fill 1 kw s with
  | (s', None) => (with_raw s' (s_raw s' + 1)%Z, None)
  | (s', Some EValueError) => (s', None)
  | (s', Some e) => (s', Some e)
  end.

(** fill_spectrum.py:288-293 (and 162-167, 127-132): the loop over the extractors; the
    boolean is the variable [fill]. *)
Fixpoint extract {E} (xs : list (extractor E)) (e : E) (kw : dict Qc) : res (dict Qc * bool) :=
  match xs with
  | [] => Ok (kw, true)
  | x :: r =>
      do v <- ex_valid x e;
      if v then extract r e (dset (ex_name x) (ex_value x e) kw) else Ok (kw, false)
  end.

(** fill_spectrum.py:284-300, the standard loop of fill_from_ntuple. *)
Fixpoint ntuple_loop {E} (xs : list (extractor E)) (es : list E) (s : spectra) : spectra * out :=
  match es with
  | [] => (s, None)
  | e :: r =>
      match extract xs e [] with
      | Err x => (s, Some x)
      | Ok (_, false) => ntuple_loop xs r s
      | Ok (kw, true) =>
          match try_fill kw s with
          | (s', None) => ntuple_loop xs r s'
          | stop => stop
          end
      end
  end.

(** fill_spectrum.py:48-53: the loop over the extractors in _bipo_ntuple; the boolean is
    the variable [check_next], which keeps its value if there is no extractor. *)
Fixpoint extract_bipo {E} (xs : list (extractor E)) (e : E) (kw : dict Qc) (chk : bool)
  : res (dict Qc * bool) :=
  match xs with
  | [] => Ok (kw, chk)
  | x :: r =>
      do v <- ex_valid x e;
      if v then extract_bipo r e (dset (ex_name x) (ex_value x e) kw) true else Ok (kw, false)
  end.

(** fill_spectrum.py:32-54, _bipo_ntuple: [chk] is check_next, [kw] is fill_kwargs. *)
Fixpoint bipo_loop {E} (evIndex : E -> Z) (xs : list (extractor E)) (es : list E)
  (chk : bool) (kw : dict Qc) (s : spectra) : spectra * out :=
  match es with
  | [] => (s, None)
  | e :: r =>
      match (if chk && (evIndex e <? 1)%Z then try_fill kw s else (s, None)) with
      | (s', Some x) => (s', Some x)
      | (s', None) =>
          if negb (evIndex e =? 0)%Z then bipo_loop evIndex xs r false [] s'
          else match extract_bipo xs e [] chk with
               | Err x => (s', Some x)
               | Ok (kw', chk') => bipo_loop evIndex xs r chk' kw' s'
               end
      end
  end.

(** fill_spectrum.py:276-300: the part of fill_from_ntuple after the spectrum has been
    made; [factory] is dsextract.function_factory with the keyword arguments given. *)
Definition ntuple_into {E} (evIndex : E -> Z) (factory : string -> res (extractor E))
  (bipo : bool) (es : list E) (s : spectra) : spectra * out :=
  match rmapM factory (get_pars (s_cfg s)) with
  | Err x => (s, Some x)
  | Ok xs =>
      if bipo then bipo_loop evIndex xs es false [] (with_bipo s 1)
      else ntuple_loop xs es s
  end.

(** fill_spectrum.py:239-300, fill_from_ntuple with spectrum=None. *)
Definition fill_from_ntuple {E} (evIndex : E -> Z) (factory : string -> res (extractor E))
  (name : string) (config : option sconfig) (bipo : bool) (es : list E) : res spectra :=
  match config with
  | None => Err EValueError
  | Some c =>
      if String.eqb name "" then Err EValueError
      else
        do s <- new_spectra name (nq (length es)) c None;
        match ntuple_into evIndex factory bipo es s with
        | (s', None) => Ok s'
        | (_, Some x) => Err x
        end
  end.

(** fill_spectrum.py:239-300 with a spectrum to append to (mutated in place). *)
Definition append_from_ntuple {E} (evIndex : E -> Z) (factory : string -> res (extractor E))
  (bipo : bool) (es : list E) (s : spectra) : spectra * out :=
  ntuple_into evIndex factory bipo es (with_decays s (s_decays s + nq (length es))%Qc).

(** ** ROOT files.  [D] is a ds entry, [V] one of its EVs; an extractor is applied to
    (ds, None) for the MC branch of ds and to (ds, Some ev) for an event. fill_spectrum.py:80-103 *)
Definition var_type (v : string) : string := last (split_char "_"%char v) "".

(** fill_spectrum.py:141-173, _root_mc *)
Fixpoint root_mc {D V} (evs : D -> list V) (xs : list (string * extractor (D * option V)))
  (bipo : bool) (ds : list D) (s : spectra) : spectra * out :=
  match ds with
  | [] => (s, None)
  | d :: r =>
      if bipo && negb (Nat.eqb (length (evs d)) 1) then root_mc evs xs bipo r s
      else match extract (map snd xs) (d, None) [] with
           | Err x => (s, Some x)
           | Ok (_, false) => root_mc evs xs bipo r s
           | Ok (kw, true) =>
               match try_fill kw s with
               | (s', None) => root_mc evs xs bipo r s'
               | stop => stop
               end
           end
  end.

(** fill_spectrum.py:123-138, the loop over the EVs in _root_ev *)
Fixpoint ev_loop {D V} (xs : list (string * extractor (D * option V))) (d : D) (vs : list V)
  (s : spectra) : spectra * out :=
  match vs with
  | [] => (s, None)
  | v :: r =>
      match extract (map snd xs) (d, Some v) [] with
      | Err x => (s, Some x)
      | Ok (_, false) => ev_loop xs d r s
      | Ok (kw, true) =>
          match try_fill kw s with
          | (s', None) => ev_loop xs d r s'
          | stop => stop
          end
      end
  end.
(** fill_spectrum.py:105-138, _root_ev *)
Fixpoint root_ev {D V} (evs : D -> list V) (xs : list (string * extractor (D * option V)))
  (bipo : bool) (ds : list D) (s : spectra) : spectra * out :=
  match ds with
  | [] => (s, None)
  | d :: r =>
      if bipo && negb (Nat.eqb (length (evs d)) 1) then root_ev evs xs bipo r s
      else match ev_loop xs d (evs d) s with
           | (s', None) => root_ev evs xs bipo r s'
           | stop => stop
           end
  end.

(** fill_spectrum.py:80-95, the loop over the extractors in _root_mix *)
Fixpoint extract_mix {D V} (xs : list (string * extractor (D * option V))) (d : D) (v : V)
  (kw : dict Qc) : res (dict Qc * bool) :=
  match xs with
  | [] => Ok (kw, true)
  | (var, x) :: r =>
      let arg := if String.eqb (var_type var) "reco" then (d, Some v) else (d, None) in
      do ok <- ex_valid x arg;
      if ok then extract_mix r d v (dset (ex_name x) (ex_value x arg) kw) else Ok (kw, false)
  end.
(** fill_spectrum.py:77-102: fill_kwargs is not reset between the EVs of one entry. *)
Fixpoint mix_loop {D V} (xs : list (string * extractor (D * option V))) (d : D) (vs : list V)
  (kw : dict Qc) (s : spectra) : spectra * out :=
  match vs with
  | [] => (s, None)
  | v :: r =>
      match extract_mix xs d v kw with
      | Err x => (s, Some x)
      | Ok (kw', false) => mix_loop xs d r kw' s
      | Ok (kw', true) =>
          match try_fill kw' s with
          | (s', None) => mix_loop xs d r kw' s'
          | stop => stop
          end
      end
  end.
(** fill_spectrum.py:57-102, _root_mix *)
Fixpoint root_mix {D V} (evs : D -> list V) (xs : list (string * extractor (D * option V)))
  (bipo : bool) (ds : list D) (s : spectra) : spectra * out :=
  match ds with
  | [] => (s, None)
  | d :: r =>
      if bipo && negb (Nat.eqb (length (evs d)) 1) then root_mix evs xs bipo r s
      else match mix_loop xs d (evs d) [] s with
           | (s', None) => root_mix evs xs bipo r s'
           | stop => stop
           end
  end.

(** fill_spectrum.py:216-226: the extractors and the flags mc_fill, ev_fill.  The dict of
    extractors is kept in configuration order (iteration order of a Python 2 dict is
    arbitrary; it matters only for which exception is raised first). *)
Fixpoint root_extractors {X} (factory : string -> res X) (vars : list string) (mc ev : bool)
  : res (list (string * X) * bool * bool) :=
  match vars with
  | [] => Ok ([], mc, ev)
  | v :: r =>
      let t := var_type v in
      if String.eqb t "mc" || String.eqb t "truth" then
        do x <- factory v;
        do q <- root_extractors factory r true ev;
        let '(xs, m, e) := q in Ok ((v, x) :: xs, m, e)
      else if String.eqb t "reco" then
        do x <- factory v;
        do q <- root_extractors factory r mc true;
        let '(xs, m, e) := q in Ok ((v, x) :: xs, m, e)
      else Err EIndexError
  end.
(** fill_spectrum.py:213-236 *)
Definition root_into {D V} (evs : D -> list V)
  (factory : string -> res (extractor (D * option V)))
  (bipo : bool) (ds : list D) (s : spectra) : spectra * out :=
  match root_extractors factory (get_pars (s_cfg s)) false false with
  | Err x => (s, Some x)
  | Ok (xs, mc_fill, ev_fill) =>
      let s1 := if bipo then with_bipo s 1 else s in
      if mc_fill && ev_fill then root_mix evs xs bipo ds s1
      else if mc_fill then root_mc evs xs bipo ds s1
      else root_ev evs xs bipo ds s1
  end.
(** fill_spectrum.py:176-236, fill_from_root with spectrum=None, and appending. *)
Definition fill_from_root {D V} (evs : D -> list V)
  (factory : string -> res (extractor (D * option V)))
  (name : string) (config : option sconfig) (bipo : bool) (ds : list D) : res spectra :=
  match config with
  | None => Err EValueError
  | Some c =>
      if String.eqb name "" then Err EValueError
      else
        do s <- new_spectra name (nq (length ds)) c None;
        match root_into evs factory bipo ds s with
        | (s', None) => Ok s'
        | (_, Some x) => Err x
        end
  end.
(** fill_spectrum.py:176-236, fill_from_root with a spectrum to append to (mutated in place). *)
Definition append_from_root {D V} (evs : D -> list V)
  (factory : string -> res (extractor (D * option V)))
  (bipo : bool) (ds : list D) (s : spectra) : spectra * out :=
  root_into evs factory bipo ds (with_decays s (s_decays s + nq (length ds))%Qc).

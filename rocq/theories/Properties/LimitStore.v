(** C79: what get_limit keeps, writes and logs.  Missing for the full statement: a file name asked for
    is ignored if no limit is found, storing the spectra always fails, and the log shows the numbers
    of another scale; all three are characterised and refuted below. *)
From Coq Require Import Permutation Lia.
From Verif Require Import Model.Base Model.PyStr Model.NDArray Model.Param Model.Config Model.Spectra Model.FitParam Model.FitConfig.
From Verif Require Import Model.Minimise Model.Store Model.Results Model.Limit Model.LimitStore.
From Verif Require Import Spec.LimitSpec Spec.ConfigSpec Spec.StoreSpec Spec.ResultsSpec Spec.LimitStoreSpec.
From Verif Require Import Proofs.PreConvLemmas Proofs.LimitStoreLemmas Proofs.StoreNoWidth Properties.Store.
Local Open Scope string_scope.
Local Open Scope nat_scope.

Section C79.
Context {St : Type} (fit : St -> option Qc -> St * res fitsum) (lg : fpar -> res (list Qc)) (dec : nat -> string) (base : string).

(** The answer is the limit of C45, and it is stored with the fits it came from. *)
Theorem C79_stored_partial : forall e now rq w scales s1 m s2 fs, good_dec dec -> limit_scene fit lg rq w scales s1 m s2 fs -> rq_spectra rq = false ->
  let n := length scales in
  let T := full_at (gc_get_pars (lr_fit (w_res w))) fs m in
  let stored w' path := stored_at dec e (w_disk w) (w_disk w') path (w_res w) fs m (rq_fits rq) in
  exists b, first_least (stat_at fs) n b /\
  match limit_call fit lg dec base now rq w with
  | (w', Ok x) => w_fit w' = s2 /\ (exists j, first_crossing T b n (rq_limit rq) j /\ x = nth j scales 0%Qc) /\
      if rq_store rq then exists path, place_asked base now (w_res w) (rq_fname rq) path /\ stored w' path
      else w_disk w' = w_disk w
  | (w', Err er) => w_fit w' = s2 /\ er = ELimitError /\ (forall j, b <= j < n -> (T j <= rq_limit rq)%Qc) /\
      if rq_store rq then stored w' (own_name base now (lr_name (w_res w))) else w_disk w' = w_disk w
  end.
Proof.
  intros e now rq w scales s1 m s2 fs GD (NE & Rd & W & SC & RF & FR & FS) SP n T stored.
  destruct (limit_call_l fit lg dec base e now rq w scales s1 m s2 fs GD Rd W SC NE RF FR FS) as (w' & r & b & rp & k & E & A1 & A2 & A3 & A4 & A5 & A6 & A7 & A8).
  exists b. split; [exact A5|]. rewrite E. rewrite SP in A8. destruct A8 as [(j & B1 & _ & _ & _ & -> & B2)|(j & B1 & _ & _ & _ & _ & -> & B2)].
  - split; [exact A1|]. split; [exists j; split; [exact B1|reflexivity]|]. destruct (rq_store rq); [|exact B2].
    eexists. split; [|exact B2]. unfold place_asked. destruct (rq_fname rq) as [[|c s]|]; try reflexivity. apply name_l. discriminate.
  - split; [exact A1|]. split; [reflexivity|]. split; [exact B1|exact B2].
Qed.
(** Whatever was calculated before, the results afterwards are those of the fits of this call. *)
Theorem C79_history : forall hist now rq w0 scales s1 m s2 fs, good_dec dec ->
  (forall s x s' f, fit s x = (s', Ok f) -> full_summary (gc_get_pars (lr_fit (w_res w0))) f) ->
  ready (w_res w0) (length scales) -> widths (w_res w0) -> lr_get_scales lg (w_res w0) = Ok scales -> scales <> [] ->
  let w := fst (limit_calls fit lg dec base hist w0) in
  reference fit (w_fit w) (rq_min rq) s1 m -> fits_run fit s1 scales s2 fs ->
  limit_scene fit lg rq w scales s1 m s2 fs /\
  let w' := fst (limit_call fit lg dec base now rq w) in
  keeps (w_res w') (length scales) (best_at fs) (pen_at fs) (fun i => stat_at fs i - m)%Qc /\
  lr_name (w_res w') = lr_name (w_res w0) /\ lr_fit (w_res w') = lr_fit (w_res w0) /\ lr_limit (w_res w') = lr_limit (w_res w0).
Proof.
  intros hist now rq w0 scales s1 m s2 fs GD FF Rd W SC NE w RF FR.
  destruct (calls_ready fit lg dec base (length scales) hist w0 Rd FF) as [Rd' R']. fold w in Rd', R'.
  pose proof R' as (X1 & X2 & X3 & X4 & X5).
  assert (SCN : limit_scene fit lg rq w scales s1 m s2 fs).
  { split; [exact NE|]. split; [exact Rd'|]. split; [unfold widths; now rewrite X2|]. split; [unfold lr_get_scales in *; now rewrite X5|].
    split; [exact RF|]. split; [exact FR|]. rewrite X2. clear -FF FR. revert s1 fs FR.
    induction scales as [|x l IH]; intros s1 [|f fs] FR; try contradiction; [constructor|]. destruct FR as (s' & F & FR). constructor; [exact (FF _ _ _ _ F)|exact (IH _ _ FR)]. }
  split; [exact SCN|]. cbv zeta. destruct SCN as (_ & _ & W' & SC' & _ & _ & FS').
  destruct (limit_call_l fit lg dec base 0%Qc now rq w scales s1 m s2 fs GD Rd' W' SC' NE RF FR FS') as (w' & r & b & rp & k & E & A1 & A2 & A3 & A4 & _).
  rewrite E. cbn [fst]. split; [exact A4|]. destruct A3 as (Y1 & Y2 & Y3 & Y4 & Y5). repeat split; congruence.
Qed.
(** If a fit raises, so does the call, and nothing is written or logged. *)
Theorem C79_raises : forall now rq w pre x post s1 m s2 s3 fs e,
  ready (w_res w) (length (pre ++ x :: post)) -> lr_get_scales lg (w_res w) = Ok (pre ++ x :: post)%list ->
  reference fit (w_fit w) (rq_min rq) s1 m -> fits_run fit s1 pre s2 fs ->
  Forall (full_summary (gc_get_pars (lr_fit (w_res w)))) fs -> fit s2 (if isclose x 0 then None else Some x) = (s3, Err e) ->
  exists r', limit_call fit lg dec base now rq w = (World s3 r' (w_disk w) (w_log w), Err e).
Proof. exact (raises_l fit lg dec base). Qed.
(** The file asked for is not written if no limit is found. *)
Theorem C79_asked_name_refuted : forall now rq w scales s1 m s2 fs b n, good_dec dec -> limit_scene fit lg rq w scales s1 m s2 fs ->
  first_least (stat_at fs) (length scales) b ->
  (forall j, b <= j < length scales -> (full_at (gc_get_pars (lr_fit (w_res w))) fs m j <= rq_limit rq)%Qc) ->
  rq_fname rq = Some n -> n <> own_name base now (lr_name (w_res w)) -> (n ++ ".hdf5") <> own_name base now (lr_name (w_res w)) ->
  let w' := fst (limit_call fit lg dec base now rq w) in w_disk w' n = w_disk w n /\ w_disk w' (n ++ ".hdf5") = w_disk w (n ++ ".hdf5").
Proof.
  intros now rq w scales s1 m s2 fs b n GD (NE & Rd & W & SC & RF & FR & FS) FL AL _ N1 N2.
  destruct (limit_call_l fit lg dec base 0%Qc now rq w scales s1 m s2 fs GD Rd W SC NE RF FR FS) as (w' & r & b' & rp & k & E & A1 & A2 & A3 & A4 & A5 & A6 & A7 & A8).
  assert (b' = b).
  { destruct FL as (L1 & L2 & L3), A5 as (M1 & M2 & M3). destruct (Nat.lt_trichotomy b b') as [L|[L|L]]; [|congruence|]; exfalso.
    - exact (Qclt_not_le _ _ (M3 b L) (L2 b' M1)).
    - exact (Qclt_not_le _ _ (L3 b' L) (M2 b L1)). }
  subst b'. rewrite E. cbn [fst]. destruct A8 as [(j & (C1 & C2 & _) & _)|(j & _ & _ & _ & _ & _ & _ & B2)].
  - exfalso. exact (Qclt_not_le _ _ C2 (AL j C1)).
  - destruct (rq_store rq); [|rewrite B2; split; reflexivity]. destruct B2 as [B2 _]. split; apply B2; assumption.
Qed.
(** Asking for the spectra makes every call fail, after the results were written. *)
Theorem C79_spectra_refuted : forall e now rq w scales s1 m s2 fs, good_dec dec -> limit_scene fit lg rq w scales s1 m s2 fs -> rq_spectra rq = true ->
  exists w' er, limit_call fit lg dec base now rq w = (w', Err er) /\ (rq_store rq = true -> er = ETypeError) /\
    (rq_store rq = true -> exists path, stored_at dec e (w_disk w) (w_disk w') path (w_res w) fs m (rq_fits rq)).
Proof.
  intros e now rq w scales s1 m s2 fs GD (NE & Rd & W & SC & RF & FR & FS) SP.
  destruct (limit_call_l fit lg dec base e now rq w scales s1 m s2 fs GD Rd W SC NE RF FR FS) as (w' & r & b & rp & k & E & _ & _ & _ & _ & _ & _ & _ & A8).
  rewrite E, SP in *. destruct A8 as [(j & _ & _ & _ & _ & -> & B2)|(j & _ & _ & _ & _ & _ & -> & B2)]; exists w'; eexists; (split; [reflexivity|]);
    destruct (rq_store rq); (split; [congruence|]); intro; try discriminate; eexists; exact B2.
Qed.
(** The log: the decays are those of the answer; the best fits, penalty terms and statistic are those
    of the scale at the answer if the statistic is least at the first scale.  Otherwise they belong to
    the scale as many places before the answer. *)
Theorem C79_log_partial : forall now rq w scales s1 m s2 fs, good_dec dec -> limit_scene fit lg rq w scales s1 m s2 fs ->
  let n := length scales in
  let pars := gc_get_pars (lr_fit (w_res w)) in
  let T := full_at pars fs m in
  exists b j rp, first_least (stat_at fs) n b /\ w_log (fst (limit_call fit lg dec base now rq w)) = (w_log w ++ [rp])%list /\
    rp_decays rp = nth j scales 0%Qc /\ b <= j < n /\
    (if rp_found rp then first_crossing T b n (rq_limit rq) j
     else (forall i, b <= i < n -> (T i <= rq_limit rq)%Qc) /\ first_greatest T b n j) /\
    shows (lr_fit (w_res w)) fs m rp (j - b).
Proof.
  intros now rq w scales s1 m s2 fs GD (NE & Rd & W & SC & RF & FR & FS) n pars T.
  destruct (limit_call_l fit lg dec base 0%Qc now rq w scales s1 m s2 fs GD Rd W SC NE RF FR FS) as (w' & r & b & rp & k & E & A1 & A2 & A3 & A4 & A5 & A6 & A7 & A8).
  rewrite E. cbn [fst]. destruct A8 as [(j & B1 & -> & B2 & B3 & _)|(j & B1 & B1' & -> & B2 & B3 & _)]; exists b, j, rp; rewrite B2;
    (split; [exact A5|]; split; [exact A6|]; split; [exact B3|]; split; [|split; [|exact A7]]).
  - apply B1. - exact B1. - apply B1'. - split; [exact B1|exact B1'].
Qed.
(** Without the width of one parameter of the fit every call fails with a TypeError while it writes
    the log: all fits are made and kept, but there is no answer, no file and no entry of the log. *)
Theorem C79_no_width_refuted : forall now rq w scales s1 m s2 fs,
  ready (w_res w) (length scales) -> ~ widths (w_res w) -> lr_get_scales lg (w_res w) = Ok scales -> scales <> [] ->
  reference fit (w_fit w) (rq_min rq) s1 m -> fits_run fit s1 scales s2 fs -> Forall (full_summary (gc_get_pars (lr_fit (w_res w)))) fs ->
  exists r', limit_call fit lg dec base now rq w = (World s2 r' (w_disk w) (w_log w), Err ETypeError) /\
    keeps r' (length scales) (best_at fs) (pen_at fs) (fun i => stat_at fs i - m)%Qc.
Proof. exact (no_width_call fit lg dec base). Qed.
End C79.

(** ** Example: two parameters, five scales; the statistic is least at the third. *)
Definition x_gc : gconfig := demo_gc [gscale "energy" 3; grate "Te130_rate" 5].
Definition x_lim : sfconfig := SFC "lim" "Signal" [("rate", CPar PRate (demo_gpar "rate" None 5))].
Definition x_res : lresults := LR "limit" x_gc demo_cfg "config" x_lim (azeros [5]) (azeros [5; 2]) (azeros [5; 2]) (repeat None 5).
Definition x_sum (v : Qc) : fitsum :=
  FitSum (zq 10 * (v - 1) * (v - 1))%Qc
    (Some ([("Te130_rate", (1 + v, 0)%Qc); ("energy_scale", (v, v * qq 1 10)%Qc)], demo_lsearch [gscale "energy" 3; grate "Te130_rate" 5] false)).
Definition x_fit (s : nat) (x : option Qc) : nat * res fitsum := (S s, Ok (x_sum (match x with Some v => v | None => 0%Qc end))).
Definition x_world : world (St := nat) := World 0 x_res (fun _ => None) [].
Definition x_rq (limit : Qc) (spectra : bool) : request := Request limit None true true spectra (Some "mine").
Definition x_scales : list Qc := [0; qq 1 2; 1; qq 3 2; zq 2]%Qc.
Definition x_fits : list fitsum := map x_sum x_scales.
Definition no_log_grid : fpar -> res (list Qc) := fun _ => Err EException.
Lemma x_scene limit spectra : limit_scene x_fit no_log_grid (x_rq limit spectra) x_world x_scales 1 (zq 10) 6 x_fits.
Proof.
  assert (C : forall n d b, constructed (demo_gpar n d b)) by (intros; right; repeat split; now left).
  assert (ND : NoDup (gc_get_pars x_gc)) by (repeat constructor; cbn; intuition discriminate).
  split; [discriminate|]. split; [|split; [|split; [|split; [|split]]]].
  - split; [|split; [|split; [|split; [|split; [|split]]]]].
    + repeat split. exact ND.
    + split; [exists (CPar PRate (demo_gpar "rate" None 5)), 5, []; repeat split|]. repeat constructor.
    + split; [exact ND|]. split; [|reflexivity]. constructor; [|constructor; [|constructor]].
      * split; [reflexivity|]. exists "energy", "scale". refine (conj eq_refl (conj eq_refl (conj eq_refl (conj (C _ _ _) _)))). discriminate.
      * split; [reflexivity|]. repeat split. apply C.
    + apply (sbuilt_par [] "energy_mc" (SPar 0 (zq 10) 4)), sbuilt_new.
    + discriminate.
    + repeat constructor. cbn. tauto.
    + constructor; [|constructor]. repeat split. apply C.
  - repeat constructor; discriminate.
  - vm_compute. repeat f_equal; apply Qc_is_canon; reflexivity.
  - eexists. split; [reflexivity|]. apply Qc_is_canon. vm_compute. reflexivity.
  - unfold x_scales, x_fits. cbn [map fits_run].
    exists 2. split; [reflexivity|]. exists 3. split; [reflexivity|]. exists 4. split; [reflexivity|]. exists 5. split; [reflexivity|]. exists 6. split; reflexivity.
  - assert (X : forall v, full_summary (gc_get_pars x_gc) (x_sum v)).
    { intro v. do 2 eexists. split; [reflexivity|]. split; [apply perm_swap|]. split; discriminate. }
    repeat constructor; apply X.
Qed.
(** The answer is 2 decays, at the last scale; the file "mine.hdf5" is there and no other, and holds the
    statistics and best fits of all five scales. *)
Definition x_call (limit : Qc) : world (St := nat) * res Qc := limit_call x_fit no_log_grid dec_nat "/base" "now" (x_rq limit false) x_world.
Definition x_read (limit : Qc) (path : string) : res (list (list Q)) :=
  do lr' <- load_limit_results dec_nat 0%Qc (w_disk (fst (x_call limit)) path);
  do l1 <- lr_get_full_stats lr'; do l2 <- lr_get_best_fits lr' "energy_scale"; Ok [map this l1; map this l2].
Example C79_ex :
  good_dec dec_nat /\ rmap this (snd (x_call (zq (-3)))) = Ok 2%Q /\ w_fit (fst (x_call (zq (-3)))) = 6 /\
  x_read (zq (-3)) "mine.hdf5" = Ok [[0; -149 # 20; -99 # 10; -147 # 20; 1 # 5]; [0; 1 # 2; 1; 3 # 2; 2]]%Q /\
  x_read (zq (-3)) "mine" = Err EIOError /\ x_read (zq (-3)) "/base/limit_now.hdf5" = Err EIOError.
Proof. split; [exact C62_dec|]. split; [vm_compute; reflexivity|]. split; [vm_compute; reflexivity|]. split; [vm_compute; reflexivity|]. split; vm_compute; reflexivity. Qed.
(** No limit: the results are in the other file. *)
Example C79_none_ex :
  snd (x_call (zq 3)) = Err ELimitError /\ x_read (zq 3) "mine.hdf5" = Err EIOError /\
  x_read (zq 3) "/base/limit_now.hdf5" = Ok [[0; -149 # 20; -99 # 10; -147 # 20; 1 # 5]; [0; 1 # 2; 1; 3 # 2; 2]]%Q.
Proof. split; [vm_compute; reflexivity|]. split; vm_compute; reflexivity. Qed.
(** The log of the call above says that the limit is 2 decays with best fits of 1 and 2 and a statistic
    of -9.9; at 2 decays they are 2, 3 and 0.2. *)
Theorem C79_log_refuted :
  rmap this (snd (x_call (zq (-3)))) = Ok 2%Q /\
  map (fun rp => (rp_found rp, this (rp_decays rp), map (fun p => (fst p, this (fst (fst (fst (snd p)))))) (rp_pars rp), this (rp_stat rp)))
      (w_log (fst (x_call (zq (-3))))) = [(true, 2%Q, [("energy_scale", 1%Q); ("Te130_rate", 2%Q)], (-99 # 10)%Q)] /\
  this (best_at x_fits 4 "energy_scale") = 2%Q /\ this (best_at x_fits 4 "Te130_rate") = 3%Q /\ this (full_at (gc_get_pars x_gc) x_fits (zq 10) 4) = (1 # 5)%Q.
Proof. split; [vm_compute; reflexivity|]. split; [vm_compute; reflexivity|]. split; [vm_compute; reflexivity|]. split; vm_compute; reflexivity. Qed.

(** The same with a rate that has no width. *)
Definition z_gc : gconfig := demo_gc [gscale "energy" 3; ("Te130_rate", GE (CPar PRate (FPar "Te130_rate" 1 None 0 (zq 2) 5 None None None None None None None None)) false)].
Definition z_res : lresults := LR "limit" z_gc demo_cfg "config" x_lim (azeros [5]) (azeros [5; 2]) (azeros [5; 2]) (repeat None 5).
Definition z_world : world (St := nat) := World 0 z_res (fun _ => None) [].
Example C79_no_width_ex :
  ready (w_res z_world) (length x_scales) /\ ~ widths (w_res z_world) /\ lr_get_scales no_log_grid (w_res z_world) = Ok x_scales /\
  reference x_fit 0 None 1 (zq 10) /\ fits_run x_fit 1 x_scales 6 x_fits /\ Forall (full_summary (gc_get_pars (lr_fit (w_res z_world)))) x_fits.
Proof.
  destruct (x_scene 0%Qc false) as (_ & (_ & _ & _ & A & B & C & D) & _ & E & F & G & H).
  assert (Cn : forall n d b, constructed (demo_gpar n d b)) by (intros; right; repeat split; now left).
  assert (ND : NoDup (gc_get_pars z_gc)) by (repeat constructor; cbn; intuition discriminate).
  split; [|split; [|split; [exact E|split; [exact F|split; [exact G|exact H]]]]].
  - split; [repeat split; exact ND|]. split; [split; [exists (CPar PRate (demo_gpar "rate" None 5)), 5, []; repeat split|]; repeat constructor|]. split; [|split; [exact A|split; [exact B|split; [exact C|exact D]]]].
    split; [exact ND|]. split; [|reflexivity]. constructor; [|constructor; [|constructor]].
    + split; [reflexivity|]. exists "energy", "scale". refine (conj eq_refl (conj eq_refl (conj eq_refl (conj (Cn _ _ _) _)))). discriminate.
    + split; [reflexivity|]. repeat split. right. repeat split. now left.
  - intro W. inversion W as [|? ? _ W']; subst. inversion W' as [|? ? W2 _]; subst. now apply W2.
Qed.
(** The third scale cannot be fitted. *)
Definition y_fit (s : nat) (x : option Qc) : nat * res fitsum := if s =? 3 then (4, Err EValueError) else x_fit s x.
Example C79_raises_ex :
  reference y_fit 0 None 1 (zq 10) /\ fits_run y_fit 1 [0; qq 1 2]%Qc 3 (firstn 2 x_fits) /\
  y_fit 3 (if isclose 1 0 then None else Some 1%Qc) = (4, Err EValueError) /\
  snd (limit_call y_fit no_log_grid dec_nat "/base" "now" (x_rq (zq (-3)) false) x_world) = Err EValueError.
Proof.
  split. { eexists. split; [reflexivity|]. apply Qc_is_canon. vm_compute. reflexivity. }
  split. { exists 2. split; [reflexivity|]. exists 3. split; reflexivity. }
  split; [reflexivity|]. vm_compute. reflexivity.
Qed.

Print Assumptions C79_stored_partial.
Print Assumptions C79_history.
Print Assumptions C79_raises.
Print Assumptions C79_asked_name_refuted.
Print Assumptions C79_spectra_refuted.
Print Assumptions C79_log_partial.
Print Assumptions C79_log_refuted.
Print Assumptions C79_no_width_refuted.

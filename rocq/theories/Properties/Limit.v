(** C44, C45: limits. *)
From Verif Require Import Model.Base Model.NDArray Model.FitParam Model.Minimise Model.Limit.
From Verif Require Import Spec.ArraySpec Spec.SearchSpec Spec.LimitSpec.
From Verif Require Import Proofs.QcLemmas Proofs.LimitLemmas Proofs.LimitWidths.
Local Open Scope nat_scope.

(** C44.  [counts] are the signal scalings, [a] the array of statistics. *)
Theorem C44_first_crossing : forall counts a lim n sub, ashape a = n :: sub -> length counts = n -> 0 < n ->
  match get_array_limit counts a lim with
  | Ok x => exists i, first_crossing (entry_total a) 0 n lim i /\ x = nth i counts 0%Qc
  | Err e => e = ELimitError /\ forall i, i < n -> (entry_total a i <= lim)%Qc
  end.
Proof. exact array_limit_l. Qed.
Theorem C44_found_iff : forall counts a lim n sub, ashape a = n :: sub -> length counts = n -> 0 < n ->
  ((exists x, get_array_limit counts a lim = Ok x) <-> exists i, i < n /\ (lim < entry_total a i)%Qc).
Proof.
  intros counts a lim n sub S L P. assert (H := array_limit_l counts a lim n sub S L P).
  destruct (get_array_limit counts a lim) as [x|e].
  - split; [|eauto]. intros _. destruct H as (i & ((_ & A) & B & _) & _). exists i. auto.
  - split; [intros [x X]; discriminate|]. intros (i & A & B). destruct H as [_ H]. specialize (H i A).
    exfalso. exact (Qclt_not_le _ _ B H).
Qed.
Theorem C44_incompatible : forall counts a lim n sub, ashape a = n :: sub -> length counts <> n ->
  get_array_limit counts a lim = Err ECompatibilityError.
Proof.
  intros counts a lim n sub S L. unfold get_array_limit. rewrite S. apply Nat.eqb_neq in L. now rewrite L.
Qed.
(** Nothing to read: an array without rows raises IndexError, a number TypeError. *)
Theorem C44_empty : forall a lim sub, ashape a = 0 :: sub -> get_array_limit [] a lim = Err EIndexError.
Proof. intros a lim sub S. unfold get_array_limit. rewrite S. reflexivity. Qed.
Theorem C44_number : forall counts a lim, ashape a = [] -> get_array_limit counts a lim = Err ETypeError.
Proof. intros counts a lim S. unfold get_array_limit. rewrite S. reflexivity. Qed.
(** A larger threshold never gives a smaller limit. *)
Theorem C44_monotone : forall counts a l1 l2 n sub x1 x2, ashape a = n :: sub -> length counts = n ->
  (forall i j, i <= j < n -> (nth i counts 0 <= nth j counts 0)%Qc) -> (l1 <= l2)%Qc ->
  get_array_limit counts a l1 = Ok x1 -> get_array_limit counts a l2 = Ok x2 -> (x1 <= x2)%Qc.
Proof.
  intros counts a l1 l2 n sub x1 x2 S L M Le H1 H2.
  assert (P : 0 < n).
  { destruct n; [|apply Nat.lt_0_succ]. unfold get_array_limit in H1. rewrite S, L in H1. discriminate. }
  assert (A := array_limit_l counts a l1 n sub S L P). assert (B := array_limit_l counts a l2 n sub S L P).
  rewrite H1 in A. rewrite H2 in B. destruct A as (i & A & ->). destruct B as (j & B & ->).
  apply M. split; [exact (crossing_mono _ _ _ _ _ _ _ Le A B)|apply B].
Qed.
(** A larger threshold that can be exceeded means the smaller one can. *)
Theorem C44_smaller_found : forall counts a l1 l2 n sub x2, ashape a = n :: sub -> length counts = n -> 0 < n -> (l1 <= l2)%Qc ->
  get_array_limit counts a l2 = Ok x2 -> exists x1, get_array_limit counts a l1 = Ok x1.
Proof.
  intros counts a l1 l2 n sub x2 S L P Le H. apply (C44_found_iff counts a l1 n sub S L P).
  destruct (proj1 (C44_found_iff counts a l2 n sub S L P)) as (i & A & B); [eauto|].
  exists i. split; [exact A|]. exact (Qcle_lt_trans _ _ _ Le B).
Qed.

(** For a non-decreasing statistic every earlier scaling is allowed and every later one
    excluded. *)
Theorem C44_excluded : forall counts a lim n sub x, ashape a = n :: sub -> length counts = n ->
  (forall i j, i <= j < n -> (entry_total a i <= entry_total a j)%Qc) ->
  get_array_limit counts a lim = Ok x ->
  exists i, i < n /\ x = nth i counts 0%Qc /\ (forall j, j < i -> (entry_total a j <= lim)%Qc) /\
    (forall j, i <= j < n -> (lim < entry_total a j)%Qc).
Proof.
  intros counts a lim n sub x S L M H.
  assert (P : 0 < n).
  { destruct n; [|apply Nat.lt_0_succ]. unfold get_array_limit in H. rewrite S, L in H. discriminate. }
  assert (A := array_limit_l counts a lim n sub S L P). rewrite H in A. destruct A as (i & (A & B & C) & ->).
  exists i. split; [apply A|]. split; [reflexivity|]. split; [intros j Hj; apply C; split; [apply Nat.le_0_l|exact Hj]|].
  intros j Hj. exact (Qclt_le_trans _ _ _ B (M i j Hj)).
Qed.

Definition stats42 : ndarray := ND [4; 2] (fun i => match i with [0; _] => 0%Qc | [1; j] => zq (Z.of_nat j) | [2; _] => zq 2 | _ => zq 5 end).
Example C44_ex : get_array_limit [zq 10; zq 20; zq 30; zq 40] stats42 (qq 5 2) = Ok (zq 30) /\
  get_array_limit [zq 10; zq 20; zq 30; zq 40] stats42 (zq 10) = Err ELimitError /\
  get_array_limit [zq 10] stats42 (zq 1) = Err ECompatibilityError.
Proof. vm_compute. auto. Qed.

(** C45.  [fit] is one fit (stateful; without signal for [None]); [sigmas] are the widths
    of the fit parameters; [m] is the statistic subtracted: the one given by the caller
    (unless it is zero) or that of the fit without signal. *)
Theorem C45_limit_partial : forall St (fit : St -> option Qc -> St * res fitout) scales sigmas st lim ms st1 m st2 fs,
  scales <> [] -> Forall (fun s => s <> None) sigmas ->
  match ms with
  | Some x => x <> 0%Qc /\ st1 = st /\ m = x
  | None => exists f, fit st None = (st1, Ok f) /\ fo_stat f = RNum m
  end ->
  fits_made fit st1 scales st2 fs -> Forall number fs ->
  let n := length scales in
  let T := fun j => (stat_of (nth j fs nofit) - m + penalty_of (nth j fs nofit))%Qc in
  exists b, first_least (fun j => stat_of (nth j fs nofit)) n b /\
    match get_limit fit scales n [n] sigmas st lim ms with
    | (st', Ok x) => st' = st2 /\ exists j, first_crossing T b n lim j /\ x = nth j scales 0%Qc
    | (st', Err e) => st' = st2 /\ e = ELimitError /\ forall j, b <= j < n -> (T j <= lim)%Qc
    end.
Proof. intros St fit scales sigmas st lim ms st1 m st2 fs. exact (get_limit_l fit scales sigmas st lim ms st1 m st2 fs). Qed.
(** A larger threshold never gives a smaller limit. *)
Theorem C45_monotone : forall St (fit : St -> option Qc -> St * res fitout) scales sigmas st l1 l2 ms st1 m st2 fs s1 s2 x1 x2,
  scales <> [] -> Forall (fun s => s <> None) sigmas ->
  match ms with
  | Some x => x <> 0%Qc /\ st1 = st /\ m = x
  | None => exists f, fit st None = (st1, Ok f) /\ fo_stat f = RNum m
  end ->
  fits_made fit st1 scales st2 fs -> Forall number fs ->
  (forall i j, i <= j < length scales -> (nth i scales 0 <= nth j scales 0)%Qc) -> (l1 <= l2)%Qc ->
  get_limit fit scales (length scales) [length scales] sigmas st l1 ms = (s1, Ok x1) ->
  get_limit fit scales (length scales) [length scales] sigmas st l2 ms = (s2, Ok x2) -> (x1 <= x2)%Qc.
Proof.
  intros St fit scales sigmas st l1 l2 ms st1 m st2 fs s1 s2 x1 x2 NE SG M F N Mo Le H1 H2.
  destruct (get_limit_l fit scales sigmas st l1 ms st1 m st2 fs NE SG M F N) as (b & B & A).
  destruct (get_limit_l fit scales sigmas st l2 ms st1 m st2 fs NE SG M F N) as (b' & B' & A').
  rewrite H1 in A. rewrite H2 in A'. destruct A as (_ & i & A & ->). destruct A' as (_ & j & A' & ->).
  assert (b = b') as <-.
  { destruct B as (B1 & B2 & B3). destruct B' as (B1' & B2' & B3').
    destruct (Nat.lt_trichotomy b b') as [X|[X|X]]; [exfalso|exact X|exfalso].
    - exact (Qclt_not_le _ _ (B3' b X) (B2 b' B1')).
    - exact (Qclt_not_le _ _ (B3 b' X) (B2' b B1)). }
  apply Mo. split; [exact (crossing_mono _ _ _ _ _ _ _ Le A A')|apply A'].
Qed.
(** A fit that raises ends the search with its exception. *)
Theorem C45_raises_first : forall St (fit : St -> option Qc -> St * res fitout) scales k sh sigmas st lim st1 e,
  fit st None = (st1, Err e) -> get_limit fit scales k sh sigmas st lim None = (st1, Err e).
Proof. intros St fit. exact (get_limit_raises_zero_l fit). Qed.
Theorem C45_raises_later : forall St (fit : St -> option Qc -> St * res fitout) scales sigmas st lim st1 m f pre x post st2 st3 fs e,
  fit st None = (st1, Ok f) -> fo_stat f = RNum m ->
  scales = pre ++ x :: post -> fits_made fit st1 pre st2 fs -> Forall number fs ->
  fit st2 (if isclose x 0 then None else Some x) = (st3, Err e) ->
  get_limit fit scales (length scales) [length scales] sigmas st lim None = (st3, Err e).
Proof. intros St fit. exact (get_limit_raises_l fit). Qed.

(** A parabola with its minimum at 10 decays, fitted once for each of six scalings; the
    state counts the fits. *)
Definition parabola (n : nat) (x : option Qc) : nat * res fitout :=
  let v := match x with Some v => v | None => 0%Qc end in
  (S n, Ok (FitOut (RNum ((v - zq 10) * (v - zq 10)))%Qc (Some [qq 1 2; qq 1 4]))).
Definition six : list Qc := [0%Qc; zq 5; zq 10; zq 15; zq 20; zq 25].
Definition six_fits : list fitout :=
  map (fun v => FitOut (RNum ((v - zq 10) * (v - zq 10)))%Qc (Some [qq 1 2; qq 1 4])) six.
Example C45_ex :
  get_limit parabola six 6 [6] [Some 1%Qc; Some 1%Qc] 0 (zq (-80)) None = (7, Ok (zq 15)) /\
  get_limit parabola six 6 [6] [Some 1%Qc; Some 1%Qc] 0 (zq 100) None = (7, Ok (zq 25)) /\
  get_limit parabola six 6 [6] [Some 1%Qc; Some 1%Qc] 0 (zq 200) None = (7, Err ELimitError) /\
  fits_made parabola 1 six 7 six_fits /\ Forall number six_fits /\
  Forall (fun s : option Qc => s <> None) [Some 1%Qc; Some 1%Qc] /\
  (exists f, parabola 0 None = (1, Ok f) /\ fo_stat f = RNum (zq 100)).
Proof.
  split; [vm_compute; reflexivity|]. split; [vm_compute; reflexivity|]. split; [vm_compute; reflexivity|].
  split; [repeat (eexists; split; [reflexivity|]); reflexivity|].
  split; [repeat constructor; eexists; reflexivity|]. split; [repeat constructor; discriminate|].
  eexists. split; reflexivity.
Qed.

(** What is false.  The penalty terms of the fit without signal are not subtracted: here
    every fit gives the same statistic and the same penalty as the fit without signal, so
    the statistic never rises at all, and still a limit is reported. *)
Definition constant (_ : unit) (_ : option Qc) : unit * res fitout := (tt, Ok (FitOut (RNum (zq 50)) (Some [zq 3]))).
Theorem C45_penalty_refuted : ~ (forall St (fit : St -> option Qc -> St * res fitout) scales sigmas st lim f,
  (forall s x, exists s', fit s x = (s', Ok f)) -> (0 < lim)%Qc ->
  snd (get_limit fit scales (length scales) [length scales] sigmas st lim None) = Err ELimitError).
Proof.
  intro H. specialize (H unit constant six [Some 1%Qc] tt (qq 271 100) (FitOut (RNum (zq 50)) (Some [zq 3]))).
  assert (X : snd (get_limit constant six 6 [6] [Some 1%Qc] tt (qq 271 100) None) = Ok 0%Qc) by (vm_compute; reflexivity).
  unfold six in H. cbn [length] in H. fold six in H. rewrite X in H.
  discriminate H; [intros s x; exists tt; reflexivity|reflexivity].
Qed.
(** A supplied minimum of zero is ignored. *)
Theorem C45_zero_minimum_ignored : forall St (fit : St -> option Qc -> St * res fitout) scales k sh sigmas st lim,
  get_limit fit scales k sh sigmas st lim (Some 0%Qc) = get_limit fit scales k sh sigmas st lim None.
Proof. intros St fit. exact (get_limit_zero_l fit). Qed.
(** A fit parameter without a width makes the search raise TypeError whether or not a
    limit was found. *)
Theorem C45_no_width_refuted : exists St (fit : St -> option Qc -> St * res fitout) scales st lim x,
  snd (get_limit fit scales (length scales) [length scales] [Some 1%Qc] st lim None) = Ok x /\
  snd (get_limit fit scales (length scales) [length scales] [None] st lim None) = Err ETypeError.
Proof. exists nat, parabola, six, 0, (zq 100), (zq 25). split; vm_compute; reflexivity. Qed.
(** So whatever the fits give, and whichever of the parameters it is. *)
Theorem C45_no_width : forall St (fit : St -> option Qc -> St * res fitout) scales sigmas st lim ms st1 m st2 fs,
  scales <> [] -> In None sigmas ->
  match ms with
  | Some x => x <> 0%Qc /\ st1 = st /\ m = x
  | None => exists f, fit st None = (st1, Ok f) /\ fo_stat f = RNum m
  end ->
  fits_made fit st1 scales st2 fs -> Forall number fs ->
  get_limit fit scales (length scales) [length scales] sigmas st lim ms = (st2, Err ETypeError).
Proof. intros St fit scales sigmas st lim ms st1 m st2 fs. exact (get_limit_no_width fit scales sigmas st lim ms st1 m st2 fs). Qed.
Example C45_no_width_ex :
  In None [Some 1%Qc; None] /\ fits_made parabola 1 six 7 six_fits /\ Forall number six_fits /\
  get_limit parabola six 6 [6] [Some 1%Qc; None] 0 (zq 100) None = (7, Err ETypeError).
Proof.
  split; [right; now left|]. split; [repeat (eexists; split; [reflexivity|]); reflexivity|].
  split; [repeat constructor; eexists; reflexivity|]. vm_compute. reflexivity.
Qed.
(** With one statistic per bin the minimum is searched in the flattened array: here the
    total of the statistics rises from 0 to 8 over five scalings (two bins each), the
    threshold is 5, and LimitError is not even reached. *)
Definition per_bin_fit (n : nat) (x : option Qc) : nat * res fitout :=
  let v := match x with Some v => v | None => 0%Qc end in
  (S n, Ok (FitOut (RArr (ND [2] (fun i => match i with [1] => - v | _ => zq 3 * v end)))%Qc None)).
Theorem C45_per_bin_refuted :
  snd (get_limit per_bin_fit [0%Qc; 1%Qc; zq 2; zq 3; zq 4] 5 [5] [] 0 (zq 5) None) = Err EValueError /\
  (forall n v, exists a, snd (per_bin_fit n (Some v)) = Ok (FitOut (RArr a) None) /\ ashape a = [2] /\ total [2] (aget a) = (zq 2 * v)%Qc).
Proof.
  split; [vm_compute; reflexivity|]. intros n v. eexists. split; [reflexivity|]. split; [reflexivity|].
  cbn. unfold total, sum_where. cbn. 
  replace (zq 3) with (1 + 1 + 1)%Qc by (apply Qc_is_canon; reflexivity).
  replace (zq 2) with (1 + 1)%Qc by (apply Qc_is_canon; reflexivity). ring.
Qed.

Print Assumptions C44_first_crossing.
Print Assumptions C44_monotone.
Print Assumptions C44_empty.
Print Assumptions C44_number.
Print Assumptions C45_limit_partial.
Print Assumptions C45_monotone.
Print Assumptions C45_raises_later.
Print Assumptions C45_penalty_refuted.
Print Assumptions C45_per_bin_refuted.
Print Assumptions C45_no_width.

(** Vocabulary for C76 and C77: the same history of operations with exact numbers, and what it
    means for the binary64 numbers to agree with the exact ones. *)
From Coq Require Import ZArith Reals Qreals Permutation.
From Flocq Require Import Core IEEE754.Binary IEEE754.Bits.
From Verif Require Import Model.Base Model.NDArray Model.Spectra Model.FloatFill Model.FloatArray Spec.FloatSpec.
Import ListNotations.

(** The rational number that a finite binary64 number stands for. *)
Definition exact (x : binary64) : Qc :=
  match x with
  | B754_finite _ _ s m e _ =>
      let z := if s then Zneg m else Zpos m in
      if (0 <=? e)%Z then zq (z * 2 ^ e) else qq z (Z.to_pos (2 ^ (- e)))
  | _ => 0%Qc
  end.
Definition exact_array (a : farray) : ndarray := ND (fshape a) (fun idx => exact (fget a idx)).

(** An order of summation adds each of the n numbers once. *)
Fixpoint leaves (t : tree) : list nat :=
  match t with Start => [] | Leaf i => [i] | Node l r => leaves l ++ leaves r end.
Definition adds_each_once (n : nat) (t : tree) : Prop := Permutation (leaves t) (seq 0 n).
(** How many additions with a rounding error there are, at most, between one of the numbers and
    the result: adding to an accumulator that is still 0 is exact. *)
Fixpoint depth (t : tree) : nat :=
  match t with
  | Start | Leaf _ => 0
  | Node l r =>
      match leaves l, leaves r with
      | [], _ => depth r
      | _, [] => depth l
      | _, _ => S (Nat.max (depth l) (depth r))
      end
  end.

(** The effect of an operation on contents and decays with exact numbers. *)
Definition e_step (o : fop) (s : ndarray * Qc) : (ndarray * Qc) * out :=
  let (a, m) := s in
  match o with
  | FFill bins w => match aadd_at a bins (exact w) with Ok a' => (a', m, None) | Err e => (s, Some e) end
  | FAdd o =>
      if shape_eqb (ashape a) (fshape (fs_data o))
      then (aplus a (exact_array (fs_data o)), (m + exact (fs_decays o))%Qc, None) else (s, Some EValueError)
  | FScale n =>
      match qdiv (exact n) m with
      | Ok f => (amap (fun x => x * f)%Qc a, exact n, None)
      | Err e => (s, Some e)
      end
  | FShrink sl => match aslice sl a with Ok a' => (a', m, None) | Err e => (s, Some e) end
  | FCut sl _ _ =>
      match aslice sl a with
      | Err e => (s, Some e)
      | Ok a' => match qdiv (asum a') (asum a) with
                 | Err e => (a', m, Some e)
                 | Ok f => (a', (m * f)%Qc, None)
                 end
      end
  | FRebin new_bins _ => match rebin_data new_bins a with Ok a' => (a', m, None) | Err e => (s, Some e) end
  end.
Fixpoint e_run (p : list fop) (s : ndarray * Qc) : (ndarray * Qc) * list out :=
  match p with
  | [] => (s, [])
  | o :: p' => let (s1, e) := e_step o s in let (s2, es) := e_run p' s1 in (s2, e :: es)
  end.

(** The sums of an operation add every number once.  rebin sums axis after axis: the i-th sum is
    over the axis -(i+1) of what the sums before it left. *)
Fixpoint orders_ok (ords : nat -> list nat -> tree) (is : list nat) (sh : list nat) : Prop :=
  match is with
  | [] => True
  | i :: r =>
      forall k, norm_axis (- (Z.of_nat i + 1)) (length sh) = Ok k ->
        (forall idx, adds_each_once (nth k sh 0%nat) (ords i idx)) /\ orders_ok ords r (remove_at k sh)
  end.
Definition sums_ok (o : fop) (sh : list nat) : Prop :=
  match o with
  | FCut sl before after =>
      adds_each_once (asize sh) before /\ adds_each_once (asize (map snd (zip_with slice_axis sl sh))) after
  | FRebin new_bins ords =>
      forall sh', rebin_shape new_bins sh = Ok sh' -> orders_ok ords (seq 0 (length new_bins)) sh'
  | _ => True
  end.
Fixpoint sums_ok_run (p : list fop) (s : ndarray * Qc) : Prop :=
  match p with
  | [] => True
  | o :: p' => sums_ok o (ashape (fst s)) /\ sums_ok_run p' (fst (e_step o s))
  end.

(** C76: whole numbers *)
Definition whole (x : binary64) : Prop := is_number x /\ exists n, (0 <= n)%Z /\ exact x = zq n.
Definition whole_array (a : farray) : Prop := forall idx, in_shape idx (fshape a) = true -> whole (fget a idx).
(** Fills and additions put in whole numbers; nothing is scaled. *)
Definition op_whole (o : fop) : Prop :=
  match o with
  | FFill _ w => whole w
  | FAdd o => whole_array (fs_data o)
  | FScale _ => False
  | _ => True
  end.
(** What an operation adds to the spectrum. *)
Definition put_in (o : fop) : Qc :=
  match o with FFill _ w => exact w | FAdd o => asum (exact_array (fs_data o)) | _ => 0%Qc end.
Fixpoint put_in_all (p : list fop) : Qc := match p with [] => 0%Qc | o :: p' => (put_in o + put_in_all p')%Qc end.
(** Every entry is a number, exactly the one of the exact array. *)
Definition same_contents (a : farray) (b : ndarray) : Prop :=
  fshape a = ashape b /\
  forall idx, in_shape idx (fshape a) = true -> is_number (fget a idx) /\ exact (fget a idx) = aget b idx.
(** The event falls into the bin idx: each of its values is put there on its axis (C55). *)
Fixpoint lands (axes : list (binary64 * binary64 * Z)) (vs : list binary64) (idx : list nat) : bool :=
  match axes, vs, idx with
  | [], [], [] => true
  | (lo, hi, n) :: r, v :: vs', i :: idx' =>
      match fill_axis lo hi n v with Ok j => (j =? Z.of_nat i)%Z | Err _ => false end && lands r vs' idx'
  | _, _, _ => false
  end.
(** The event is inside the range of every axis. *)
Fixpoint inside (axes : list (binary64 * binary64 * Z)) (vs : list binary64) : bool :=
  match axes, vs with
  | [], [] => true
  | (lo, hi, _) :: r, v :: vs' => f_le lo v && f_lt v hi && inside r vs'
  | _, _ => false
  end.
(** Finite bounds whose difference does not overflow, and up to 2^53 bins. *)
Definition axis_ok (a : binary64 * binary64 * Z) : Prop :=
  let '(lo, hi, n) := a in is_number lo /\ is_number hi /\ is_number (f_sub hi lo) /\ (1 <= n <= 2 ^ 53)%Z.
Definition number_of {A} (f : A -> bool) (l : list A) : nat := length (filter f l).
Definition bins_of (axes : list (binary64 * binary64 * Z)) : list nat := map (fun a => Z.to_nat (snd a)) axes.

(** C77: rounding errors *)
(** Half a unit in the last place of 1: 2^-53. *)
Definition unit_roundoff : R := (/ 2 ^ 53)%R.
Definition Rof (q : Qc) : R := Q2R (this q).
(** x differs from the exact q by at most k roundings, i.e. by at most a factor (1 + 2^-53)^k
    up or down. *)
Definition near (k : nat) (x : binary64) (q : Qc) : Prop :=
  is_number x /\ (0 <= Rof q)%R /\
  (Rof q / (1 + unit_roundoff) ^ k <= real x <= Rof q * (1 + unit_roundoff) ^ k)%R.
Definition near_array (k : nat) (a : farray) (b : ndarray) : Prop :=
  fshape a = ashape b /\ forall idx, in_shape idx (fshape a) = true -> near k (fget a idx) (aget b idx).
Definition nonneg (x : binary64) : Prop := is_number x /\ (0 <= real x)%R.
Definition nonneg_spectrum (s : fspectrum) : Prop :=
  (forall idx, in_shape idx (fshape (fs_data s)) = true -> nonneg (fget (fs_data s) idx)) /\ nonneg (fs_decays s).
Definition op_nonneg64 (o : fop) : Prop :=
  match o with FFill _ w => nonneg w | FAdd o => nonneg_spectrum o | FScale n => nonneg n | _ => True end.
(** How many roundings the contents and the decays have at most after an operation, from how many
    they had before. *)
Fixpoint block_rounds (is : list nat) (sh : list nat) : nat :=   (* n numbers: n - 1 additions *)
  match is with
  | [] => 0
  | i :: r =>
      match norm_axis (- (Z.of_nat i + 1)) (length sh) with
      | Ok k => (nth k sh 0 - 1) + block_rounds r (remove_at k sh)
      | Err _ => 0
      end
  end.
Definition rebin_rounds (new_bins : list Z) (sh : list nat) : nat :=
  match rebin_shape new_bins sh with Ok sh' => block_rounds (seq 0 (length new_bins)) sh' | Err _ => 0 end.
Definition rounds (o : fop) (sh : list nat) (km : nat * nat) : nat * nat :=
  let (k, m) := km in
  match o with
  | FFill _ _ => (k + 1, m)
  | FAdd _ => (k + 1, m + 1)
  | FScale _ => (k + (m + 1) + 1, 0)
  | FShrink _ => (k, m)
  | FCut _ before after => (k, m + (k + depth after + (k + depth before) + 1) + 1)
  | FRebin new_bins _ => (k + rebin_rounds new_bins sh, m)
  end%nat.
Fixpoint rounds_run (p : list fop) (s : ndarray * Qc) (km : nat * nat) : nat * nat :=
  match p with
  | [] => km
  | o :: p' => rounds_run p' (fst (e_step o s)) (rounds o (ashape (fst s)) km)
  end.
(** Nothing overflows: every number of the spectrum stays a number.  Nothing underflows: products
    and quotients are 0 or at least 2^-1022, the smallest normal number. *)
Definition numbers (s : fspectrum) : Prop :=
  (forall idx, in_shape idx (fshape (fs_data s)) = true -> is_number (fget (fs_data s) idx)) /\ is_number (fs_decays s).
Definition held (z : R) : Prop := (z = 0 \/ / 2 ^ 1022 <= z)%R.
Definition no_flow (o : fop) (s : fspectrum) : Prop :=
  numbers (fst (f_step o s)) /\
  match o with
  | FScale n =>
      real (fs_decays s) <> 0%R ->
      let c := f_div n (fs_decays s) in
      is_number c /\ held (real n / real (fs_decays s)) /\
      forall idx, in_shape idx (fshape (fs_data s)) = true -> held (real (fget (fs_data s) idx) * real c)
  | FCut sl before after =>
      let initial := f_total before (fs_data s) in
      is_number initial /\
      forall a, f_slice sl (fs_data s) = Ok a -> real initial <> 0%R ->
        let c := f_div (f_total after a) initial in
        is_number (f_total after a) /\ is_number c /\
        held (real (f_total after a) / real initial) /\ held (real (fs_decays s) * real c)
  | _ => True
  end.
Fixpoint no_flow_run (p : list fop) (s : fspectrum) : Prop :=
  match p with
  | [] => True
  | o :: p' => no_flow o s /\ no_flow_run p' (fst (f_step o s))
  end.
(** Contents and numbers of decays far from overflow and underflow. *)
Definition usual_content (x : binary64) : Prop := is_number x /\ (real x = 0 \/ / 2 ^ 500 <= real x <= 2 ^ 500)%R.
Definition usual_decays (x : binary64) : Prop := is_number x /\ (/ 2 ^ 100 <= real x <= 2 ^ 100)%R.
Definition usual (s : fspectrum) : Prop :=
  (forall idx, in_shape idx (fshape (fs_data s)) = true -> usual_content (fget (fs_data s) idx)) /\ usual_decays (fs_decays s).

(** C45, with one statistic per bin. *)
From Verif Require Import Model.Base Model.NDArray Model.FitParam Model.Minimise Model.Limit.
From Verif Require Import Spec.ArraySpec Spec.SearchSpec Spec.LimitSpec Spec.LimitBinsSpec.
From Verif Require Import Proofs.QcLemmas Proofs.MinimiseLemmas Proofs.LimitLemmas Proofs.LimitBins.
From Coq Require Import Lia.
Local Open Scope nat_scope.

(** Which limit get_limit returns, or which error it raises, for fits that give one
    statistic per bin ([sh] is the shape of the arrays; [limit_bins] is in
    Spec/LimitBinsSpec.v).  The scan starts at a place in the list of all (scaling, bin)
    pairs and not at a scaling. *)
Theorem C45_per_bin : forall St (fit : St -> option Qc -> St * res fitout) sh scales sigmas st lim st1 f0 m st2 fs,
  scales <> [] -> Forall (fun d => 0 < d) sh -> Forall (fun s => s <> None) sigmas ->
  fit st None = (st1, Ok f0) -> fo_stat f0 = RArr m -> ashape m = sh ->
  fits_made fit st1 scales st2 fs -> Forall (per_bin sh) fs ->
  fst (get_limit fit scales (length scales) [length scales] sigmas st lim None) = st2 /\
  limit_bins sh scales (length scales) (aget m) fs lim (snd (get_limit fit scales (length scales) [length scales] sigmas st lim None)).
Proof. intros St fit sh scales sigmas st lim st1 f0 m st2 fs. exact (get_limit_bins fit sh scales sigmas st lim st1 f0 m st2 fs). Qed.

(** When no bin of any scaling differs from the fit without signal by less than the first
    bin of the first scaling, the answer is the intended one: the first scaling whose total
    exceeds the threshold. *)
Theorem C45_per_bin_first : forall St (fit : St -> option Qc -> St * res fitout) sh scales sigmas st lim st1 f0 m st2 fs,
  scales <> [] -> Forall (fun d => 0 < d) sh -> Forall (fun s => s <> None) sigmas ->
  fit st None = (st1, Ok f0) -> fo_stat f0 = RArr m -> ashape m = sh ->
  fits_made fit st1 scales st2 fs -> Forall (per_bin sh) fs ->
  let n := length scales in
  let first := repeat 0 (length sh) in
  let T := fun j => (total sh (fun bin => bin_stat (nth j fs nofit) bin - aget m bin) + penalty_of (nth j fs nofit))%Qc in
  (forall j bin, j < n -> valid_idx sh bin ->
     (bin_stat (nth 0 fs nofit) first - aget m first <= bin_stat (nth j fs nofit) bin - aget m bin)%Qc) ->
  match snd (get_limit fit scales n [n] sigmas st lim None) with
  | Ok x => exists j, first_crossing T 0 n lim j /\ x = nth j scales 0%Qc
  | Err e => (e = ELimitError \/ e = EIndexError) /\ forall j, j < n -> (T j <= lim)%Qc
  end.
Proof.
  intros St fit sh scales sigmas st lim st1 f0 m st2 fs NE PS SG Z M SM F N n first T H.
  destruct (C45_per_bin St fit sh scales sigmas st lim st1 f0 m st2 fs NE PS SG Z M SM F N) as [_ L].
  fold n in L. unfold limit_bins in L. fold T in L. destruct L as (p & least & b & FM & NT & L).
  assert (P : 0 < n) by (unfold n; destruct scales; [congruence|cbn; lia]).
  assert (V : valid_idx sh first).
  { unfold first. clear - PS. induction PS; cbn; constructor; assumption. }
  assert (V0 : valid_idx (n :: sh) (0 :: first)) by (constructor; assumption).
  assert (B : b = 0).
  { assert (FM' : first_min (n :: sh) (fun i => bin_stat (nth (hd 0%nat i) fs nofit) (tl i) - aget m (tl i))%Qc (0 :: first)
       (bin_stat (nth 0 fs nofit) first - aget m first)%Qc).
    { split; [exact V0|]. split; [reflexivity|]. split.
      - intros idx Hi. destruct idx as [|i j]; [inversion Hi|]. inversion Hi; subst. cbn [hd tl]. now apply H.
      - intros idx Hi Lt. exfalso. destruct idx as [|i j]; [inversion Hi|]. cbn in Lt. destruct Lt as [Lt|[_ Lt]]; [lia|].
        clear - Lt. unfold first in Lt. revert j Lt. induction sh as [|d l IH]; intros [|x j] Lt; cbn in Lt; try contradiction.
        destruct Lt as [Lt|[_ Lt]]; [lia|]. exact (IH j Lt). }
    destruct (first_min_unique _ _ _ _ _ _ FM FM') as [E _]. subst p.
    assert (E0 : nth_error (all_idx (n :: sh)) 0 = Some (0 :: first)).
    { assert (X := all_idx_nth (n :: sh) (0 :: first) V0).
      assert (R : forall l, NDArray.ravel l (repeat 0 (length l)) = 0) by (induction l as [|d l IH]; [reflexivity|]; cbn; exact IH).
      change (0 :: first) with (repeat 0 (length (n :: sh))) in X at 1. rewrite R in X. exact X. }
    assert (ND : NoDup (all_idx (n :: sh))).
    { clear. induction (n :: sh) as [|d l IH]; [repeat constructor; intros []|]. cbn [all_idx].
      generalize 0. induction d as [|d IHd]; intro s; cbn [seq flat_map]; [constructor|].
      assert (A : forall l1 l2 : list (list nat), NoDup l1 -> NoDup l2 -> (forall x, In x l1 -> ~ In x l2) -> NoDup (l1 ++ l2)).
      { induction l1 as [|x l1 I]; intros l2 N1 N2 D; [exact N2|]. inversion N1; subst. cbn. constructor.
        - rewrite in_app_iff. intros [X|X]; [contradiction|]. exact (D x (or_introl eq_refl) X).
        - apply I; auto. intros y Y. apply D. now right. }
      apply A.
      - clear - IH. induction IH as [|x l' N _ I]; cbn; constructor; [|exact I]. rewrite in_map_iff. intros (y & [= ->] & Y). contradiction.
      - apply IHd.
      - intros x X Y. apply in_map_iff in X. destruct X as (x' & <- & _). apply in_flat_map in Y. destruct Y as (i & I & Y).
        apply in_seq in I. apply in_map_iff in Y. destruct Y as (y & [= -> ->] & _). lia. }
    rewrite NoDup_nth_error in ND. symmetry. apply ND; [|congruence].
    apply nth_error_Some. rewrite E0. discriminate. }
  subst b. destruct (snd (get_limit fit scales n [n] sigmas st lim None)) as [x|e]; [exact L|].
  destruct L as (L1 & _ & L2). split; [|intros j Hj; exact (L1 j (conj (Nat.le_0_l j) Hj))].
  destruct (L2 P) as (r & _ & L3 & L4). destruct (le_lt_dec n (0 + (r - 0) * bins sh)) as [X|X]; [right; exact (L4 X)|left; exact (L3 X)].
Qed.

(** A minimum supplied by the caller cannot be used with more than one bin: ValueError after
    the first fit. *)
Theorem C45_per_bin_given : forall St (fit : St -> option Qc -> St * res fitout) sh x l sigmas st lim m st1 f,
  m <> 0%Qc -> per_bin sh f -> (exists d, In d sh /\ d <> 1) ->
  fit st (if isclose x 0 then None else Some x) = (st1, Ok f) ->
  get_limit fit (x :: l) (length (x :: l)) [length (x :: l)] sigmas st lim (Some m) = (st1, Err EValueError).
Proof. intros St fit sh x l sigmas st lim m st1 f. exact (get_limit_bins_given fit sh x l sigmas st lim m st1 f). Qed.

(** Two bins whose statistics rise with the signal. *)
Definition two_bins (n : nat) (x : option Qc) : nat * res fitout :=
  let v := match x with Some v => v | None => 0%Qc end in
  (S n, Ok (FitOut (RArr (ND [2] (fun i => match i with [1] => v | _ => zq 2 * v end)))%Qc (Some [qq 1 2]))).
Definition five_scales : list Qc := [0%Qc; 1%Qc; zq 2; zq 3; zq 4].
Definition five_fits : list fitout :=
  map (fun v => FitOut (RArr (ND [2] (fun i => match i with [1] => v | _ => zq 2 * v end)))%Qc (Some [qq 1 2])) five_scales.
Example C45_per_bin_sat :
  get_limit two_bins five_scales 5 [5] [Some 1%Qc] 0 (zq 5) None = (6, Ok (zq 2)) /\
  get_limit two_bins five_scales 5 [5] [Some 1%Qc] 0 (zq 50) None = (6, Err EIndexError) /\
  get_limit two_bins five_scales 5 [5] [Some 1%Qc] 0 (zq 5) (Some (zq 7)) = (1, Err EValueError) /\
  fits_made two_bins 1 five_scales 6 five_fits /\ Forall (per_bin [2]) five_fits /\
  (exists f m, two_bins 0 None = (1, Ok f) /\ fo_stat f = RArr m /\ ashape m = [2]).
Proof.
  split; [vm_compute; reflexivity|]. split; [vm_compute; reflexivity|]. split; [vm_compute; reflexivity|].
  split. { repeat (eexists; split; [reflexivity|]). reflexivity. }
  split. { repeat constructor; eexists; split; reflexivity. }
  do 2 eexists. split; [reflexivity|]. split; reflexivity.
Qed.

(** Nor does an unreachable threshold always raise LimitError. *)
Theorem C45_per_bin_error_refuted : exists St (fit : St -> option Qc -> St * res fitout) scales sigmas st lim,
  snd (get_limit fit scales (length scales) [length scales] sigmas st lim None) = Err EIndexError /\
  (forall x, In x scales -> exists a, snd (fit st (Some x)) = Ok (FitOut (RArr a) (Some [qq 1 2])) /\ (total [2] (aget a) <= lim)%Qc).
Proof.
  exists nat, two_bins, five_scales, [Some 1%Qc], 0, (zq 50). split; [vm_compute; reflexivity|].
  intros x I. eexists. split; [reflexivity|].
  repeat destruct I as [<-|I]; [..|destruct I]; vm_compute; discriminate.
Qed.

Print Assumptions C45_per_bin.
Print Assumptions C45_per_bin_first.
Print Assumptions C45_per_bin_given.
Print Assumptions C45_per_bin_error_refuted.

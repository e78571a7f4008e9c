(** C85: changing the bounds and the number of bins of an axis. *)
From Coq Require Import Permutation.
From Verif Require Import Model.Base Model.PyStr Model.Param Model.FitParam Model.FitConfig Model.AxisSet.
From Verif Require Import Spec.AxisSpec Spec.ReadSpec Spec.AxisSetSpec.
From Verif Require Import Proofs.QcLemmas Proofs.AxisSetLemmas.
Local Open Scope string_scope.

(** set_par with numbers for some of low, high and bins: those take the values given (the
    number of bins cut off behind the point), the others stay. *)
Theorem C85_set : forall kws p, good_keywords kws -> exists p', set_axis kws p = (p', None) /\ axis_with kws p p'.
Proof. exact set_axis_l. Qed.
(** The order in which Python walks through the keywords does not matter. *)
Theorem C85_order : forall a b p, good_keywords a -> Permutation a b -> set_axis b p = set_axis a p.
Proof. exact set_axis_order. Qed.
(** The dictionary that to_dict gives, passed to set_par of any axis, makes it equal to the
    axis it was taken from. *)
Theorem C85_dict : forall q p kws, Permutation (sp_to_dict q) kws -> set_axis kws p = (q, None).
Proof. exact set_axis_dict. Qed.
(** An unknown keyword or a value that is no number raises the exception of the first such
    keyword in the order of the walk; those before it have been set. *)
Theorem C85_wrong : forall kws p, (exists kv e, In kv kws /\ bad_keyword kv e) ->
  exists a kv b p' e, kws = (a ++ kv :: b)%list /\ bad_keyword kv e /\ set_axis a p = (p', None) /\ set_axis kws p = (p', Some e).
Proof. exact set_axis_stop. Qed.
(** The width of the bins is the one of the new bounds and number of bins. *)
Theorem C85_width : forall kws p p' lo hi n, good_keywords kws -> set_axis kws p = (p', None) ->
  number_at kws "low" lo -> number_at kws "high" hi -> count_at kws "bins" n -> n <> 0%Z -> get_width p' = Ok ((hi - lo) / zq n)%Qc.
Proof.
  intros kws p p' lo hi n G E (v1 & D1 & N1) (v2 & D2 & N2) (v3 & D3 & N3) Z. destruct (set_axis_l kws p G) as (q & E' & A1 & A2 & A3).
  rewrite E in E'. injection E' as <-. rewrite D1 in A1. rewrite D2 in A2. rewrite D3 in A3.
  assert (sp_bins p' = n) as Eb by congruence. assert (sp_low p' = lo) as El by congruence. assert (sp_high p' = hi) as Eh by congruence.
  rewrite width_l by (now rewrite Eb). now rewrite El, Eh, Eb.
Qed.
(** Units go by the part of the name in front of the first underscore. *)
Theorem C85_unit : forall d t name, (forall a b, d <> (a ++ "_" ++ b)) -> name = d \/ name = (d ++ "_" ++ t) ->
  get_unit name = (if String.eqb d "energy" then Some "MeV" else if String.eqb d "radial" then Some "mm" else None).
Proof. exact unit_l. Qed.

(** ** What does not hold *)
(** A call that raises may have changed the axis, and whether it has depends on the order. *)
Theorem C85_wrong_refuted :
  exists a b p, Permutation a b /\ set_axis a p = (p, Some ETypeError) /\ exists p', set_axis b p = (p', Some ETypeError) /\ p' <> p.
Proof.
  exists [("unit", JNum (zq 1)); ("low", JNum (zq 2))], [("low", JNum (zq 2)); ("unit", JNum (zq 1))], (SPar (zq 0) (zq 10) 5).
  split; [apply perm_swap|]. split; [reflexivity|]. eexists. split; [reflexivity|]. intro E. apply (f_equal (fun p => this (sp_low p))) in E. vm_compute in E. discriminate.
Qed.
(** No exception for unknown names, although one is documented. *)
Theorem C85_unit_refuted : get_unit "angle_mc" = None.
Proof. reflexivity. Qed.

(** ** Examples *)
Definition new_bounds : jdict := [("bins", JNum (qq 17 2)); ("low", JInt 2)].
Example C85_set_ex : good_keywords new_bounds /\
  let p := fst (set_axis new_bounds (SPar (zq 0) (zq 10) 5)) in (this (sp_low p), this (sp_high p), sp_bins p) = (2%Q, 10%Q, 8%Z).
Proof.
  split; [|vm_compute; reflexivity]. split; [cbn; repeat constructor; cbn; intuition discriminate|].
  intros k v [I|[I|[]]]; injection I as <- <-; cbn; (split; [tauto|discriminate]).
Qed.
Example C85_wrong_ex : bad_keyword ("high", JStr "10") EValueError /\ snd (set_axis [("low", JInt 1); ("high", JStr "10")] (SPar (zq 0) (zq 10) 5)) = Some EValueError.
Proof. split; [right; split; [cbn; tauto|reflexivity]|reflexivity]. Qed.
Example C85_unit_ex : (forall a b, "energy" <> (a ++ "_" ++ b)) /\ get_unit "energy_truth" = Some "MeV" /\ get_unit "radial3_mc" = None.
Proof. split; [|split; reflexivity]. intros a b E. do 6 (destruct a as [|? a]; [discriminate|injection E as _ E]). destruct a; discriminate. Qed.

Print Assumptions C85_set.
Print Assumptions C85_order.
Print Assumptions C85_dict.
Print Assumptions C85_wrong.
Print Assumptions C85_width.
Print Assumptions C85_unit.
Print Assumptions C85_wrong_refuted.
Print Assumptions C85_unit_refuted.

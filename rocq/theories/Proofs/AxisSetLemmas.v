(** Changing an axis. *)
From Coq Require Import Lia Permutation.
From Verif Require Import Model.Base Model.PyStr Model.Param Model.FitParam Model.FitConfig Model.AxisSet.
From Verif Require Import Spec.AxisSpec Spec.ReadSpec Spec.AxisSetSpec.
From Verif Require Import Proofs.QcLemmas Proofs.StrLemmas Proofs.DictLemmas.
Local Open Scope string_scope.

Lemma float_number v : match jfloat v with Ok x => as_number v = Some x /\ not_number v = None | Err e => as_number v = None /\ not_number v = Some e end.
Proof. destruct v as [|[|]| | | |]; cbn; split; reflexivity. Qed.
Lemma int_number v : match jint v with Ok n => as_count v = Some n /\ as_number v <> None | Err e => as_number v = None /\ not_number v = Some e end.
Proof. destruct v as [|[|]| | | |]; cbn; split; (reflexivity || discriminate). Qed.

Lemma set_one_cases k v p : match set_axis_one k v p with
  | Ok p' => (k = "low" /\ as_number v = Some (sp_low p') /\ sp_high p' = sp_high p /\ sp_bins p' = sp_bins p) \/
             (k = "high" /\ as_number v = Some (sp_high p') /\ sp_low p' = sp_low p /\ sp_bins p' = sp_bins p) \/
             (k = "bins" /\ as_count v = Some (sp_bins p') /\ as_number v <> None /\ sp_low p' = sp_low p /\ sp_high p' = sp_high p)
  | Err e => bad_keyword (k, v) e
  end.
Proof.
  unfold set_axis_one, bad_keyword. cbn [fst snd]. pose proof (float_number v) as F. pose proof (int_number v) as I.
  destruct (String.eqb_spec k "low") as [->|N1]; [destruct (jfloat v) as [x|e]; cbn [rbind]; [left; cbn; tauto|right; cbn; tauto]|].
  destruct (String.eqb_spec k "high") as [->|N2]; [destruct (jfloat v) as [x|e]; cbn [rbind]; [right; left; cbn; tauto|right; cbn; tauto]|].
  destruct (String.eqb_spec k "bins") as [->|N3]; [destruct (jint v) as [x|e]; cbn [rbind]; [right; right; cbn; tauto|right; cbn; tauto]|].
  left. split; [|reflexivity]. cbn. intuition congruence.
Qed.
Lemma good_ok k v p : In k ["low"; "high"; "bins"] -> as_number v <> None -> exists p', set_axis_one k v p = Ok p'.
Proof.
  intros I N. pose proof (set_one_cases k v p) as C. destruct (set_axis_one k v p) as [p'|e]; [eauto|]. unfold bad_keyword in C. cbn [fst snd] in C.
  destruct C as [[C _]|[_ C]]; [contradiction|]. exfalso. apply N. destruct v; cbn in *; congruence.
Qed.
Lemma set_axis_l : forall kws p, good_keywords kws -> exists p', set_axis kws p = (p', None) /\ axis_with kws p p'.
Proof.
  induction kws as [|[k v] kws IH]; intros p [N G]; [exists p; repeat split|]. cbn [map fst] in N. inversion N as [|a b N1 N2]; subst.
  destruct (G k v (or_introl eq_refl)) as [I V]. destruct (good_ok k v p I V) as (p1 & E1). cbn [set_axis]. rewrite E1.
  destruct (IH p1) as (p' & E & A1 & A2 & A3). { split; [exact N2|]. intros k' v' J. apply G. now right. }
  exists p'. split; [exact E|]. pose proof (set_one_cases k v p) as C. rewrite E1 in C.
  assert (D : dget k kws = None) by (apply dget_none; exact N1).
  unfold axis_with. cbn [dget]. destruct C as [(-> & C1 & C2 & C3)|[(-> & C1 & C2 & C3)|(-> & C1 & C0 & C2 & C3)]]; cbn [String.eqb Ascii.eqb Bool.eqb];
    rewrite D in *; (split; [|split]); try congruence;
    match goal with |- match ?x with _ => _ end => destruct x; congruence end.
Qed.
Lemma dget_perm {A} (a b : dict A) k : NoDup (map fst a) -> Permutation a b -> dget k a = dget k b.
Proof.
  intros N P. assert (Nb : NoDup (map fst b)) by (apply (Permutation_NoDup (Permutation_map fst P) N)).
  destruct (dget k a) as [v|] eqn:E.
  - symmetry. apply In_dget; [exact Nb|]. apply (Permutation_in _ P). now apply dget_In.
  - destruct (dget k b) as [v|] eqn:F; [|reflexivity]. apply dget_In in F. apply (Permutation_in _ (Permutation_sym P)) in F. apply (In_dget k v a N) in F. congruence.
Qed.
Lemma axis_with_unique kws p a b : axis_with kws p a -> axis_with kws p b -> a = b.
Proof.
  destruct a as [a1 a2 a3], b as [b1 b2 b3]. intros (A1 & A2 & A3) (B1 & B2 & B3). cbn [sp_low sp_high sp_bins] in *.
  destruct (dget "low" kws), (dget "high" kws), (dget "bins" kws); f_equal; congruence.
Qed.
Lemma set_axis_order a b p : good_keywords a -> Permutation a b -> set_axis b p = set_axis a p.
Proof.
  intros G P. destruct (set_axis_l a p G) as (pa & Ea & Wa).
  assert (Gb : good_keywords b). { destruct G as [N G]. split; [apply (Permutation_NoDup (Permutation_map fst P) N)|]. intros k v I. apply G. now apply (Permutation_in _ (Permutation_sym P)). }
  destruct (set_axis_l b p Gb) as (pb & Eb & Wb). rewrite Ea, Eb. f_equal. apply (axis_with_unique a p); [|exact Wa].
  unfold axis_with in *. destruct G as [N _]. now rewrite !(dget_perm a b _ N P).
Qed.
Lemma set_axis_dict q p kws : Permutation (sp_to_dict q) kws -> set_axis kws p = (q, None).
Proof.
  intro P. rewrite (set_axis_order (sp_to_dict q) kws p); [|split|exact P].
  - destruct q. reflexivity.
  - cbn. repeat constructor; cbn; intuition discriminate.
  - intros k v [I|[I|[I|[]]]]; injection I as <- <-; cbn; (split; [tauto|discriminate]).
Qed.
(** An attribute given by one of the keywords, or the old one. *)
Lemma set_axis_stop : forall kws p, (exists kv e, In kv kws /\ bad_keyword kv e) ->
  exists a kv b p' e, kws = (a ++ kv :: b)%list /\ bad_keyword kv e /\ set_axis a p = (p', None) /\ set_axis kws p = (p', Some e).
Proof.
  induction kws as [|[k v] kws IH]; intros p (kv & e & I & B); [destruct I|]. cbn [set_axis].
  pose proof (set_one_cases k v p) as C. destruct (set_axis_one k v p) as [p1|e1] eqn:E1.
  - assert (J : In kv kws).
    { destruct I as [<-|I]; [|exact I]. exfalso. unfold bad_keyword in B. cbn [fst snd] in B.
      destruct B as [[B _]|[_ B]]; [apply B; cbn; destruct C as [(-> & _)|[(-> & _)|(-> & _)]]; tauto|].
      destruct C as [(_ & C & _)|[(_ & C & _)|(_ & _ & C & _)]]; destruct v; cbn in *; congruence. }
    destruct (IH p1) as (a & kv' & b & p' & e' & -> & B' & E & E'); [eauto|]. exists ((k, v) :: a)%list, kv', b, p', e'. split; [reflexivity|]. split; [exact B'|].
    split; [cbn [set_axis]; now rewrite E1|exact E'].
  - exists [], (k, v), kws, p, e1. split; [reflexivity|]. split; [exact C|]. split; reflexivity.
Qed.
Lemma width_l p : sp_bins p <> 0%Z -> get_width p = Ok ((sp_high p - sp_low p) / zq (sp_bins p))%Qc.
Proof.
  intro H. unfold get_width, qdiv. assert (qeq (zq (sp_bins p)) 0 = false) as ->; [|reflexivity].
  destruct (qeq (zq (sp_bins p)) 0) eqn:E; [|reflexivity]. apply qeq_iff in E. rewrite <- zq_0 in E. apply zq_inj in E. contradiction.
Qed.
Lemma unit_l d t name : (forall a b, d <> (a ++ "_" ++ b)) -> name = d \/ name = (d ++ "_" ++ t) ->
  get_unit name = (if String.eqb d "energy" then Some "MeV" else if String.eqb d "radial" then Some "mm" else None).
Proof.
  intros H E. assert (N : has_char "_"%char d = false).
  { destruct (has_char "_"%char d) eqn:C; [|reflexivity]. destruct (split_decompose _ _ C) as (a & A & _). elim (H a _ A). }
  unfold get_unit. assert (hd "" (split_char "_"%char name) = d) as ->; [|reflexivity].
  destruct E as [-> | ->]; [now rewrite split_none|]. change ("_" ++ t) with (String "_" t). rewrite split_app, (split_none _ _ N). reflexivity.
Qed.

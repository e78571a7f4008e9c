(** Dictionaries with string keys. *)
From Coq Require Import Lia.
From Verif Require Import Model.Base Model.PyStr.

Lemma str_in_iff x l : str_in x l = true <-> In x l.
Proof.
  unfold str_in. rewrite existsb_exists. split.
  - intros (y & H & E). apply String.eqb_eq in E. subst. exact H.
  - intro H. exists x. split; [exact H|apply String.eqb_refl].
Qed.
Lemma str_in_false x l : str_in x l = false <-> ~ In x l.
Proof.
  rewrite <- str_in_iff. destruct (str_in x l); split; congruence.
Qed.
Lemma dget_In {A} k (d : dict A) v : dget k d = Some v -> In (k, v) d.
Proof.
  induction d as [|[k' v'] d IH]; cbn; [discriminate|].
  destruct (String.eqb_spec k k') as [->|N]; intro H; [injection H as ->; auto|auto].
Qed.
Lemma dget_key {A} k (d : dict A) v : dget k d = Some v -> In k (dkeys d).
Proof. intro H. apply dget_In in H. apply (in_map fst) in H. exact H. Qed.
Lemma key_dget {A} k (d : dict A) : In k (dkeys d) -> exists v, dget k d = Some v.
Proof.
  induction d as [|[k' v'] d IH]; cbn; [intros []|].
  destruct (String.eqb_spec k k') as [->|N]; intros [E|H]; eauto.
  congruence.
Qed.
Lemma dget_none {A} k (d : dict A) : dget k d = None <-> ~ In k (dkeys d).
Proof.
  split; intro H.
  - intro K. apply key_dget in K as (v & K). congruence.
  - destruct (dget k d) eqn:E; [|reflexivity]. exfalso. apply H. eapply dget_key; eassumption.
Qed.
Lemma In_dget {A} k v (d : dict A) : NoDup (dkeys d) -> In (k, v) d -> dget k d = Some v.
Proof.
  induction d as [|[k' v'] d IH]; cbn; intros N H; [destruct H|].
  inversion N as [|a b N1 N2]; subst. destruct (String.eqb_spec k k') as [->|E].
  - destruct H as [H|H]; [congruence|]. exfalso. apply N1. apply (in_map fst) in H. exact H.
  - destruct H as [H|H]; [congruence|]. apply IH; assumption.
Qed.
Lemma dlookup_ok {A} k (d : dict A) v : dlookup k d = Ok v <-> dget k d = Some v.
Proof. unfold dlookup. destruct (dget k d); split; congruence. Qed.
Lemma dget_dset_same {A} k (v : A) d : dget k (dset k v d) = Some v.
Proof.
  induction d as [|[k' v'] d IH]; cbn; [rewrite String.eqb_refl; reflexivity|].
  destruct (String.eqb_spec k k') as [->|N]; cbn; [rewrite String.eqb_refl; reflexivity|].
  destruct (String.eqb_spec k k'); [contradiction|]. exact IH.
Qed.
Lemma dget_dset_other {A} k k' (v : A) d : k <> k' -> dget k (dset k' v d) = dget k d.
Proof.
  intro N. induction d as [|[k2 v2] d IH]; cbn.
  - destruct (String.eqb_spec k k'); [contradiction|reflexivity].
  - destruct (String.eqb_spec k' k2) as [->|N2]; cbn.
    + destruct (String.eqb_spec k k2); [contradiction|reflexivity].
    + destruct (String.eqb_spec k k2); [reflexivity|exact IH].
Qed.
Lemma dkeys_dset {A} k (v : A) d :
  dkeys (dset k v d) = if str_in k (dkeys d) then dkeys d else dkeys d ++ [k].
Proof.
  unfold dkeys, str_in. induction d as [|[k' v'] d IH]; cbn; [reflexivity|].
  destruct (String.eqb_spec k k') as [->|N]; cbn; [reflexivity|].
  rewrite IH. destruct (existsb _ _); reflexivity.
Qed.

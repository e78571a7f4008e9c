(** Proofs for C73. *)
From Coq Require Import Lia.
From Verif Require Import Model.Base Model.PyStr Model.NDArray Model.Param Model.Config Model.Spectra Model.FitParam Model.Minimise.
From Verif Require Import Model.FitConfig Model.ConfigFile Model.Store Model.Plot Model.Results Spec.ResultsSpec.
From Verif Require Import Proofs.QcLemmas Proofs.DictLemmas Proofs.ProjectLemmas Proofs.PlotLemmas.
Local Open Scope nat_scope.

Lemma norm_refers n z i : i < n -> (norm_index z n = Ok i <-> refers n z i = true).
Proof.
  intro L. unfold norm_index, refers. destruct (Z.ltb_spec z 0) as [N|N].
  - destruct (Z.leb_spec 0 z); [lia|]. cbn [andb orb].
    destruct (Z.leb_spec 0 (z + Z.of_nat n)), (Z.ltb_spec (z + Z.of_nat n) (Z.of_nat n)); cbn [andb];
      destruct (Z.eqb_spec (z + Z.of_nat n) (Z.of_nat i)); split; intro HH; try reflexivity; try discriminate; try lia.
    + rewrite e, Nat2Z.id. reflexivity.
    + injection HH as HH. lia.
  - destruct (Z.leb_spec 0 z); [|lia]. cbn [andb orb].
    destruct (Z.ltb_spec z (Z.of_nat n)); destruct (Z.eqb_spec z (Z.of_nat i)); cbn [andb orb]; split; intro HH;
      try reflexivity; try discriminate; try lia.
    + subst z. rewrite Nat2Z.id. reflexivity.
    + injection HH as HH. lia.
Qed.
Lemma norm_ok n z : forall k, norm_index z n = Ok k -> k < n.
Proof.
  intros k. unfold norm_index. destruct (_ && _)%bool eqn:E; [|discriminate]. apply andb_true_iff in E as [E1 E2].
  apply Z.leb_le in E1. apply Z.ltb_lt in E2. intro H. injection H as <-. lia.
Qed.
Lemma norm_nat k n : k < n -> norm_index (Z.of_nat k) n = Ok k.
Proof. intro L. apply norm_refers; [exact L|]. unfold refers. rewrite Z.eqb_refl. destruct (Z.leb_spec 0 (Z.of_nat k)); [reflexivity|lia]. Qed.
Lemma refers_nat n i : refers n (Z.of_nat i) i = true.
Proof. unfold refers. rewrite Z.eqb_refl. destruct (Z.leb_spec 0 (Z.of_nat i)); [reflexivity|lia]. Qed.
Lemma cell_ok a n m z i k : ashape a = [n; m] -> i < n -> k < m -> refers n z i = true -> cell a z k = Ok (i, k).
Proof.
  intros Sh I K R. unfold cell. rewrite Sh. cbn [norm_indices]. rewrite (proj2 (norm_refers n z i I) R). cbn [rbind].
  rewrite (norm_nat k m K). reflexivity.
Qed.
Lemma cell_inv a n m z i k k' : ashape a = [n; m] -> k < m -> cell a z k = Ok (i, k') -> i < n /\ k' = k /\ refers n z i = true.
Proof.
  intros Sh K. unfold cell. rewrite Sh. cbn [norm_indices]. destruct (norm_index z n) as [j|e] eqn:E; [|discriminate]. cbn [rbind].
  rewrite (norm_nat k m K). cbn [rbind]. intro H. injection H as <- <-. pose proof (norm_ok _ _ _ E) as L.
  split; [exact L|]. split; [reflexivity|]. apply (norm_refers n z j L). exact E.
Qed.
Lemma refers_fun n z i j : refers n z i = true -> refers n z j = true -> i = j.
Proof.
  unfold refers. destruct (Z.leb_spec 0 z), (Z.ltb_spec z 0); cbn [andb orb]; try lia.
Qed.

(** Position of a parameter *)
Definition pos (l : list string) (p : string) : nat := match index_of p l with Ok k => k | Err _ => 0 end.
Lemma pos_ok l p : In p l -> index_of p l = Ok (pos l p) /\ pos l p < length l /\ nth_error l (pos l p) = Some p.
Proof. intro I. destruct (index_of_ok p l I) as (k & E & L & N). unfold pos. rewrite E. auto. Qed.
Lemma pos_nth l k : NoDup l -> k < length l -> pos l (nth k l EmptyString) = k.
Proof.
  intros ND L. unfold pos. rewrite (index_at (nth k l EmptyString) l k ND); [reflexivity|].
  apply nth_error_nth'. exact L.
Qed.
Lemma pos_inj l p q : In p l -> In q l -> pos l p = pos l q -> p = q.
Proof. intros Ip Iq E. destruct (pos_ok l p Ip) as (_ & _ & N1). destruct (pos_ok l q Iq) as (_ & _ & N2). congruence. Qed.

(** What the arrays hold *)
Definition best_of (r : lresults) (i : nat) (p : string) : Qc := aget (lr_best r) [i; pos (gc_get_pars (lr_fit r)) p].
Definition pen_of (r : lresults) (i : nat) (p : string) : Qc := aget (lr_pen r) [i; pos (gc_get_pars (lr_fit r)) p].
Definition stat_of (r : lresults) (i : nat) : Qc := aget (lr_stats r) [i].
Lemma fold_qsum l : forall s, fold_left Qcplus l s = (s + qsum l)%Qc.
Proof. induction l as [|x l IH]; intro s; unfold qsum in *; cbn; [ring|]. rewrite IH. ring. Qed.
Lemma cols_pars {A} (f : nat -> A) l : NoDup l -> map f (seq 0 (length l)) = map (fun p => f (pos l p)) l.
Proof.
  intro ND. apply nth_ext with (d := f 0) (d' := f 0); [rewrite !map_length, seq_length; reflexivity|].
  intros k K. rewrite map_length, seq_length in K. rewrite nth_map_seq by exact K.
  rewrite (nth_indep _ _ ((fun p => f (pos l p)) EmptyString)) by (rewrite map_length; exact K).
  pose proof (map_nth (fun p => f (pos l p)) l EmptyString k) as M. rewrite M, pos_nth by assumption. reflexivity.
Qed.
Lemma rmapM_map {A B} (f : A -> res B) (g : A -> B) l : (forall x, In x l -> f x = Ok (g x)) -> rmapM f l = Ok (map g l).
Proof. induction l as [|x l IH]; intro H; cbn; [reflexivity|]. rewrite H by (left; reflexivity). rewrite IH by (intros; apply H; right; assumption). reflexivity. Qed.
Lemma full_ok r n z i : shaped r n -> refers n z i = true -> i < n ->
  lr_get_full_stat r z = Ok (stat_of r i + qsum (map (pen_of r i) (gc_get_pars (lr_fit r))))%Qc.
Proof.
  intros (ND & S1 & S2 & S3) R I. unfold lr_get_full_stat, entry1, row. rewrite S1, S2. cbn [norm_indices].
  rewrite (proj2 (norm_refers n z i I) R). cbn [rbind]. rewrite fold_qsum. unfold stat_of, pen_of.
  rewrite (cols_pars (fun k => aget (lr_pen r) [i; k])) by exact ND. reflexivity.
Qed.
Lemma keeps_own r n : shaped r n -> keeps r n (best_of r) (pen_of r) (stat_of r).
Proof.
  intros Sh. pose proof Sh as (ND & S1 & S2 & S3). split; [|split; [|split; [|split]]].
  - intros z i par R I P. destruct (pos_ok _ _ P) as (E & L & _). unfold lr_get_best_fit, lr_get_penalty_term, gc_get_index.
    rewrite E. cbn [rbind]. rewrite (cell_ok _ _ _ _ _ _ S3 I L R), (cell_ok _ _ _ _ _ _ S2 I L R). split; reflexivity.
  - intros par P. destruct (pos_ok _ _ P) as (E & L & _). unfold lr_get_best_fits, lr_get_penalty_terms, gc_get_index, column.
    rewrite E. cbn [rbind]. rewrite S2, S3. rewrite (proj2 (Nat.ltb_lt _ _) L). split; reflexivity.
  - intros z i R I. split; [|apply (full_ok r n z i Sh R I)]. unfold lr_get_penalty_terms_at_scale, row. rewrite S2.
    rewrite (proj2 (norm_refers n z i I) R). cbn [rbind].
    rewrite (cols_pars (fun k => aget (lr_pen r) [i; k])) by exact ND. reflexivity.
  - unfold lr_get_stats, items1. rewrite S1. reflexivity.
  - unfold lr_get_full_stats. rewrite S1. apply rmapM_map. intros i I. apply in_seq in I.
    apply (full_ok r n); [exact Sh|apply refers_nat|lia].
Qed.
(** The readings determine the contents. *)
Lemma keeps_ext r n B P S B' P' S' : (forall i par, i < n -> In par (gc_get_pars (lr_fit r)) -> B i par = B' i par) ->
  (forall i par, i < n -> In par (gc_get_pars (lr_fit r)) -> P i par = P' i par) -> (forall i, i < n -> S i = S' i) ->
  keeps r n B P S -> keeps r n B' P' S'.
Proof.
  intros EB EP ES (H1 & H2 & H3 & H4 & H5).
  assert (EF : forall i, i < n -> map (P i) (gc_get_pars (lr_fit r)) = map (P' i) (gc_get_pars (lr_fit r))).
  { intros i I. apply map_ext_in. intros par Ip. apply EP; assumption. }
  split; [|split; [|split; [|split]]].
  - intros z i par R I Ip. rewrite <- EB, <- EP by assumption. apply H1; assumption.
  - intros par Ip. destruct (H2 par Ip) as [A1 A2]. rewrite A1, A2. split; f_equal; apply map_ext_in; intros i Ii; apply in_seq in Ii; [apply EB|apply EP]; lia || assumption.
  - intros z i R I. destruct (H3 z i R I) as [A1 A2]. rewrite A1, A2, EF, ES by exact I. split; reflexivity.
  - rewrite H4. f_equal. apply map_ext_in. intros i Ii. apply in_seq in Ii. apply ES. lia.
  - rewrite H5. f_equal. apply map_ext_in. intros i Ii. apply in_seq in Ii. rewrite EF, ES by lia. reflexivity.
Qed.
Lemma keeps_fun r n B P S : shaped r n -> keeps r n B P S ->
  (forall i par, i < n -> In par (gc_get_pars (lr_fit r)) -> B i par = best_of r i par /\ P i par = pen_of r i par) /\
  (forall i, i < n -> S i = stat_of r i).
Proof.
  intros Sh (H1 & _ & _ & H4 & _). destruct (keeps_own r n Sh) as (G1 & _ & _ & G4 & _). split.
  - intros i par I Ip. destruct (H1 (Z.of_nat i) i par (refers_nat n i) I Ip) as [A1 A2].
    destruct (G1 (Z.of_nat i) i par (refers_nat n i) I Ip) as [B1 B2]. split; congruence.
  - intros i I. rewrite H4 in G4. injection G4 as G4. apply (f_equal (fun l => nth i l 0%Qc)) in G4.
    rewrite !nth_map_seq in G4 by exact I. exact G4.
Qed.

(** One call *)
Lemma idx_eqb_two a b c d : idx_eqb [a; b] [c; d] = ((a =? c) && (b =? d))%bool.
Proof. cbn. rewrite Bool.andb_true_r. reflexivity. Qed.
Lemma set_shaped r n o : shaped r n -> shaped (fst (lr_set r o)) n /\ lr_fit (fst (lr_set r o)) = lr_fit r.
Proof.
  intros Sh. unfold lr_set. destruct o as [i v par|i v par|i v].
  - destruct (gc_get_index _ _) as [k|e]; cbn [rbind]; [|auto]. destruct (cell _ _ _) as [c|e]; cbn [rbind]; [|auto]. split; [exact Sh|reflexivity].
  - destruct (gc_get_index _ _) as [k|e]; cbn [rbind]; [|auto]. destruct (cell _ _ _) as [c|e]; cbn [rbind]; [|auto]. split; [exact Sh|reflexivity].
  - destruct (norm_indices _ _) as [k|e]; cbn [rbind]; [|auto]. split; [exact Sh|reflexivity].
Qed.
Lemma cell_set a n m z v l par (p : string) k i j : NoDup l -> ashape a = [n; m] -> m = length l -> index_of p l = Ok k ->
  In par l -> j < n ->
  match cell a z k with
  | Ok c => i = fst c -> aget (aset a [fst c; snd c] v) [j; pos l par] =
            match (if refers n z j && (p =? par)%string then Some v else None) with Some w => w | None => aget a [j; pos l par] end
  | Err _ => (refers n z j && (p =? par)%string)%bool = false
  end.
Proof.
  intros ND Sh Em Ek Ip J. assert (Ik := index_of_inv _ _ _ Ek). destruct Ik as [Nk Lk].
  assert (Pk : pos l p = k) by (unfold pos; rewrite Ek; reflexivity).
  assert (Inp : In p l) by (apply nth_error_In in Nk; exact Nk).
  destruct (cell a z k) as [[c1 c2]|e] eqn:C.
  - destruct (cell_inv a n m z c1 k c2 Sh) as (L1 & -> & R); [lia|exact C|]. cbn [fst snd]. intros _. unfold aset. cbn [aget].
    rewrite idx_eqb_two. destruct (Nat.eqb_spec j c1) as [->|NJ].
    + rewrite R. cbn [andb]. destruct (Nat.eqb_spec (pos l par) k) as [E|NE].
      * assert (p = par) by (apply (pos_inj l); [exact Inp|exact Ip|congruence]). subst. rewrite String.eqb_refl. reflexivity.
      * destruct (String.eqb_spec p par) as [->|]; [congruence|reflexivity].
    + cbn [andb]. destruct (refers n z j) eqn:RJ; [|reflexivity]. exfalso. apply NJ. apply (refers_fun n z); assumption.
  - apply Bool.not_true_is_false. intro H. apply andb_true_iff in H as [H _].
    rewrite (cell_ok a n m z j k Sh J) in C by (try lia; exact H). discriminate.
Qed.
Lemma set_contents r n o : shaped r n -> forall i par, i < n -> In par (gc_get_pars (lr_fit r)) ->
  let r' := fst (lr_set r o) in
  best_of r' i par = match best_set n i par o with Some v => v | None => best_of r i par end /\
  pen_of r' i par = match penalty_set n i par o with Some v => v | None => pen_of r i par end.
Proof.
  intros Sh i par I Ip. pose proof Sh as (ND & S1 & S2 & S3). set (l := gc_get_pars (lr_fit r)) in *.
  unfold lr_set. destruct o as [z v p|z v p|z v]; cbn [best_set penalty_set].
  - destruct (gc_get_index (lr_fit r) p) as [k|e] eqn:G; cbn [rbind].
    + pose proof (cell_set (lr_best r) n (length l) z v l par p k) as C. unfold gc_get_index in G. fold l in G.
      destruct (cell (lr_best r) z k) as [c|e] eqn:E; cbn [rbind fst].
      * specialize (C (fst c) i ND S3 eq_refl G Ip I eq_refl). split; [|reflexivity]. unfold best_of, lr_with_best. cbn [lr_best lr_fit]. exact C.
      * specialize (C 0 i ND S3 eq_refl G Ip I). rewrite C. auto.
    + cbn [fst]. unfold gc_get_index in G. fold l in G.
      assert (H : (refers n z i && (p =? par)%string)%bool = false).
      { destruct (String.eqb_spec p par) as [->|]; [|apply andb_false_r]. destruct (pos_ok l par Ip) as (E & _). congruence. }
      rewrite H. auto.
  - destruct (gc_get_index (lr_fit r) p) as [k|e] eqn:G; cbn [rbind].
    + pose proof (cell_set (lr_pen r) n (length l) z v l par p k) as C. unfold gc_get_index in G. fold l in G.
      destruct (cell (lr_pen r) z k) as [c|e] eqn:E; cbn [rbind fst].
      * specialize (C (fst c) i ND S2 eq_refl G Ip I eq_refl). split; [reflexivity|]. unfold pen_of, lr_with_pen. cbn [lr_pen lr_fit]. exact C.
      * specialize (C 0 i ND S2 eq_refl G Ip I). rewrite C. auto.
    + cbn [fst]. unfold gc_get_index in G. fold l in G.
      assert (H : (refers n z i && (p =? par)%string)%bool = false).
      { destruct (String.eqb_spec p par) as [->|]; [|apply andb_false_r]. destruct (pos_ok l par Ip) as (E & _). congruence. }
      rewrite H. auto.
  - destruct (norm_indices _ _) as [k|e]; cbn [rbind fst]; split; reflexivity.
Qed.
Lemma set_stat_contents r n o : shaped r n -> forall i, i < n ->
  stat_of (fst (lr_set r o)) i = match stat_set n i o with Some v => v | None => stat_of r i end.
Proof.
  intros (ND & S1 & S2 & S3) i I. unfold lr_set. destruct o as [z v p|z v p|z v]; cbn [stat_set].
  - destruct (gc_get_index _ _) as [k|e]; cbn [rbind]; [|auto]. destruct (cell _ _ _) as [c|e]; cbn [rbind]; reflexivity.
  - destruct (gc_get_index _ _) as [k|e]; cbn [rbind]; [|auto]. destruct (cell _ _ _) as [c|e]; cbn [rbind]; reflexivity.
  - rewrite S1. cbn [norm_indices]. destruct (norm_index z n) as [j|e] eqn:E; cbn [rbind fst].
    + pose proof (norm_ok _ _ _ E) as J. unfold stat_of, lr_with_stats. cbn [lr_stats]. unfold aset. cbn [aget]. cbn [idx_eqb]. rewrite Bool.andb_true_r.
      apply (norm_refers n z j J) in E. destruct (Nat.eqb_spec i j) as [->|NE]; [rewrite E; reflexivity|].
      destruct (refers n z i) eqn:R; [|reflexivity]. exfalso. apply NE. apply (refers_fun n z); assumption.
    + destruct (refers n z i) eqn:R; [|reflexivity]. apply (norm_refers n z i I) in R. congruence.
Qed.
Lemma history_l ops : forall r n, shaped r n -> forall i par, i < n -> In par (gc_get_pars (lr_fit r)) ->
  shaped (after ops r) n /\ lr_fit (after ops r) = lr_fit r /\
  best_of (after ops r) i par = latest (best_set n i par) ops (best_of r i par) /\
  pen_of (after ops r) i par = latest (penalty_set n i par) ops (pen_of r i par).
Proof.
  induction ops as [|o ops IH]; intros r n Sh i par I Ip; [auto|].
  unfold after. cbn [fold_left latest]. fold (after ops (fst (lr_set r o))).
  destruct (set_shaped r n o Sh) as [Sh' F']. destruct (set_contents r n o Sh i par I Ip) as [C1 C2].
  destruct (IH (fst (lr_set r o)) n Sh' i par I) as (A & A' & B & C); [rewrite F'; exact Ip|].
  rewrite B, C, C1, C2. rewrite F' in A'. auto.
Qed.
Lemma history_stat ops : forall r n, shaped r n -> forall i, i < n ->
  shaped (after ops r) n /\ lr_fit (after ops r) = lr_fit r /\ stat_of (after ops r) i = latest (stat_set n i) ops (stat_of r i).
Proof.
  induction ops as [|o ops IH]; intros r n Sh i I; [auto|].
  unfold after. cbn [fold_left latest]. fold (after ops (fst (lr_set r o))).
  destruct (set_shaped r n o Sh) as [Sh' F']. pose proof (set_stat_contents r n o Sh i I) as C1.
  destruct (IH (fst (lr_set r o)) n Sh' i I) as (A & A' & B). rewrite B, C1. rewrite F' in A'. auto.
Qed.
Lemma after_shaped ops : forall r n, shaped r n -> shaped (after ops r) n /\ lr_fit (after ops r) = lr_fit r.
Proof.
  induction ops as [|o ops IH]; intros r n Sh; [auto|]. unfold after. cbn [fold_left]. fold (after ops (fst (lr_set r o))).
  destruct (set_shaped r n o Sh) as [Sh' F']. destruct (IH _ n Sh') as [A B]. rewrite F' in B. auto.
Qed.
Lemma keeps_after r n B P S ops : shaped r n -> keeps r n B P S ->
  shaped (after ops r) n /\
  keeps (after ops r) n (fun i par => latest (best_set n i par) ops (B i par))
    (fun i par => latest (penalty_set n i par) ops (P i par)) (fun i => latest (stat_set n i) ops (S i)).
Proof.
  intros Sh H. destruct (keeps_fun r n B P S Sh H) as [F1 F2]. destruct (after_shaped ops r n Sh) as [Sh' Fit].
  split; [exact Sh'|]. apply (keeps_ext _ _ (best_of (after ops r)) (pen_of (after ops r)) (stat_of (after ops r))).
  - intros i par I Ip. rewrite Fit in Ip. destruct (history_l ops r n Sh i par I Ip) as (_ & _ & E & _). rewrite E. f_equal.
    destruct (F1 i par I Ip) as [-> _]. reflexivity.
  - intros i par I Ip. rewrite Fit in Ip. destruct (history_l ops r n Sh i par I Ip) as (_ & _ & _ & E). rewrite E. f_equal.
    destruct (F1 i par I Ip) as [_ ->]. reflexivity.
  - intros i I. destruct (history_stat ops r n Sh i I) as (_ & _ & E). rewrite E. f_equal. rewrite (F2 i I). reflexivity.
  - apply keeps_own. exact Sh'.
Qed.
Lemma set_accepts r n o : shaped r n -> (snd (lr_set r o) = None <-> proper (gc_get_pars (lr_fit r)) n o) /\
  (snd (lr_set r o) <> None -> snd (lr_set r o) = Some EIndexError).
Proof.
  intros (ND & S1 & S2 & S3).
  assert (K : forall (a : ndarray) z p (f : nat -> nat -> lresults), ashape a = [n; length (gc_get_pars (lr_fit r))] ->
    let x := (do k <- gc_get_index (lr_fit r) p; do c <- cell a z k; Ok (f (fst c) (snd c))) in
    let e := snd (match x with Ok r' => (r', None) | Err e => (r, Some e) end) in
    (e = None <-> In p (gc_get_pars (lr_fit r)) /\ exists i, i < n /\ refers n z i = true) /\ (e <> None -> e = Some EIndexError)).
  { intros a z p f Sa. cbv zeta. unfold gc_get_index. destruct (in_dec string_dec p (gc_get_pars (lr_fit r))) as [I|I].
    - destruct (pos_ok _ _ I) as (E & L & _). rewrite E. cbn [rbind].
      destruct (cell a z (pos (gc_get_pars (lr_fit r)) p)) as [[c1 c2]|e] eqn:C; cbn [rbind snd].
      + destruct (cell_inv a n _ z c1 _ c2 Sa L C) as (L1 & _ & R). split; [|congruence]. split; [intros _|reflexivity]. eauto.
      + split.
        * split; [discriminate|]. intros [_ (i & Li & R)]. rewrite (cell_ok a n _ z i _ Sa Li L R) in C. discriminate.
        * intros _. unfold cell in C. rewrite Sa in C. cbn [norm_indices] in C. destruct (norm_index z n) as [j|e'] eqn:N.
          -- cbn [rbind] in C. rewrite (norm_nat _ _ L) in C. discriminate.
          -- cbn [rbind] in C. injection C as <-. unfold norm_index in N. destruct (_ && _)%bool in N; [discriminate|]. congruence.
    - rewrite (index_of_err _ _ I). cbn [rbind snd]. split; [|reflexivity]. split; [discriminate|tauto]. }
  destruct o as [z v p|z v p|z v].
  - exact (K (lr_best r) z p (fun x y => lr_with_best r (aset (lr_best r) [x; y] v)) S3).
  - exact (K (lr_pen r) z p (fun x y => lr_with_pen r (aset (lr_pen r) [x; y] v)) S2).
  - unfold lr_set. rewrite S1. cbn [norm_indices proper]. destruct (norm_index z n) as [j|e] eqn:N; cbn [rbind snd].
    + pose proof (norm_ok _ _ _ N) as J. split; [|congruence]. split; [intros _|reflexivity]. exists j. split; [exact J|]. apply norm_refers; assumption.
    + split.
      * split; [discriminate|]. intros (i & I & R). apply (norm_refers n z i I) in R. congruence.
      * intros _. unfold norm_index in N. destruct (_ && _)%bool in N; congruence.
Qed.
Lemma new_holds g c cname lim name rate r : NoDup (gc_get_pars g) -> dlookup "rate" (sf_pars lim) = Ok rate ->
  new_limit_results g c cname lim name = Ok r ->
  let n := Z.to_nat (fp_bins (cp_par rate)) in
  lr_fit r = g /\ lr_limit r = lim /\ shaped r n /\ keeps r n (fun _ _ => 0%Qc) (fun _ _ => 0%Qc) (fun _ => 0%Qc).
Proof.
  intros ND E H n. unfold new_limit_results in H. rewrite E in H. cbn [rbind] in H. injection H as <-. fold n.
  split; [reflexivity|]. split; [reflexivity|].
  match goal with |- shaped ?r n /\ _ => assert (Sh : shaped r n) by (repeat split; exact ND) end.
  split; [exact Sh|]. refine (keeps_ext _ _ _ _ _ _ _ _ _ _ _ (keeps_own _ _ Sh)); reflexivity.
Qed.

(** ** Graphs *)
Lemma tgraph_all (x y : list Qc) : length y = length x -> tgraph (length x) x y = Ok (List.combine x y).
Proof.
  intro E. unfold tgraph. rewrite E, Nat.leb_refl. cbn [andb]. f_equal. apply firstn_all2. rewrite combine_length, E. lia.
Qed.
Lemma graphs_l lg r n B P S xs : keeps r n B P S -> lr_get_scales lg r = Ok xs -> length xs = n ->
  let pars := gc_get_pars (lr_fit r) in
  plot_stats_vs_scale lg r = Ok (List.combine xs (map (fun i => S i + qsum (map (P i) pars))%Qc (seq 0 n))) /\
  (forall par, In par pars ->
     plot_best_fit_vs_scale lg r par = Ok (List.combine xs (map (fun i => B i par) (seq 0 n))) /\
     plot_penalty_term_vs_scale lg r par = Ok (List.combine xs (map (fun i => P i par) (seq 0 n)))).
Proof.
  intros (_ & H2 & _ & _ & H5) E L pars. unfold plot_stats_vs_scale, plot_best_fit_vs_scale, plot_penalty_term_vs_scale. rewrite E. cbn [rbind]. split.
  - rewrite H5. cbn [rbind]. apply tgraph_all. rewrite map_length, seq_length. congruence.
  - intros par I. destruct (H2 par I) as [-> ->]. cbn [rbind]. split; apply tgraph_all; rewrite map_length, seq_length; congruence.
Qed.
Lemma get_par_in g par p : gc_get_par g par = Ok p -> In par (gc_get_pars g).
Proof.
  unfold gc_get_par, gc_get_pars. destruct (dlookup par (gc_pars g)) as [e|] eqn:E; [|discriminate]. intros _.
  unfold dlookup in E. destruct (dget par (gc_pars g)) as [e'|] eqn:D; [|discriminate]. apply dget_In in D. apply (in_map fst) in D. exact D.
Qed.
Lemma on_column_pos a l (n : nat) par q f i : In par l -> In q l ->
  aget (on_column (pos l par) f a) [i; pos l q] = if (q =? par)%string then f (aget a [i; pos l q]) else aget a [i; pos l q].
Proof.
  intros I J. unfold on_column. cbn [aget]. destruct (String.eqb_spec q par) as [->|NE]; [rewrite Nat.eqb_refl; reflexivity|].
  destruct (Nat.eqb_spec (pos l q) (pos l par)) as [E|_]; [|reflexivity]. exfalso. apply NE. apply (pos_inj l); assumption.
Qed.
Lemma column_some r n par : shaped r n -> In par (gc_get_pars (lr_fit r)) ->
  exists c, column (lr_best r) (pos (gc_get_pars (lr_fit r)) par) = Ok c.
Proof.
  intros (_ & _ & _ & S3) I. destruct (pos_ok _ _ I) as (_ & L & _). unfold column. rewrite S3, (proj2 (Nat.ltb_lt _ _) L). eauto.
Qed.
Lemma sigma_l lg r n B P S par p sigma xs : shaped r n -> keeps r n B P S -> gc_get_par (lr_fit r) par = Ok p ->
  fp_sigma (cp_par p) = Some sigma -> lr_get_scales lg r = Ok xs -> length xs = n ->
  let pull b := ((b - fp_prior (cp_par p)) / sigma)%Qc in
  exists r', plot_sigma_best_fit_vs_scale lg r par = (r', Ok (List.combine xs (map (fun i => pull (B i par)) (seq 0 n)))) /\
    shaped r' n /\ lr_fit r' = lr_fit r /\ keeps r' n (fun i q => if (q =? par)%string then pull (B i q) else B i q) P S.
Proof.
  intros Sh H Gp Sg E L pull. pose proof (get_par_in _ _ _ Gp) as I. destruct (pos_ok _ _ I) as (Ei & Lp & _).
  destruct (column_some r n par Sh I) as [c Ec]. destruct (keeps_fun r n B P S Sh H) as [F1 F2].
  unfold plot_sigma_best_fit_vs_scale. unfold gc_get_index. rewrite Ei. cbn [rbind]. rewrite Ec. cbn [rbind]. rewrite Gp. cbn [rbind]. rewrite Sg.
  match goal with |- exists r', (?x, _) = _ /\ _ => exists x end. split; [|split; [|split]].
  2: { exact Sh. }
  2: { reflexivity. }
  2: { match goal with |- keeps ?x _ _ _ _ => set (r' := x) end.
       assert (Sh' : shaped r' n) by exact Sh.
       refine (keeps_ext _ _ _ _ _ _ _ _ _ _ _ (keeps_own r' n Sh')).
       - intros i q Ii Iq. unfold best_of, r', lr_with_best. cbn [lr_best lr_fit].
         rewrite !(on_column_pos _ _ n) by assumption. destruct (F1 i q Ii Iq) as [-> _]. destruct (q =? par)%string; reflexivity.
       - intros i q Ii Iq. destruct (F1 i q Ii Iq) as [_ ->]. reflexivity.
       - intros i Ii. rewrite (F2 i Ii). reflexivity. }
  f_equal. match goal with |- context[lr_get_best_fits ?x par] => set (r' := x) end.
  assert (Sh' : shaped r' n) by exact Sh.
  replace (lr_get_scales lg r') with (lr_get_scales lg r) by reflexivity. rewrite E. cbn [rbind].
  destruct (keeps_own r' n Sh') as (_ & K2 & _). destruct (K2 par I) as [-> _]. cbn [rbind].
  rewrite tgraph_all by (rewrite map_length, seq_length; congruence). do 2 f_equal. apply map_ext_in. intros i Ii. apply in_seq in Ii.
  unfold best_of, r', lr_with_best. cbn [lr_best lr_fit]. rewrite !(on_column_pos _ _ n) by assumption. rewrite String.eqb_refl.
  destruct (F1 i par) as [-> _]; [lia|exact I|reflexivity].
Qed.
Lemma no_sigma_l lg r n B P S par p : shaped r n -> keeps r n B P S -> gc_get_par (lr_fit r) par = Ok p ->
  fp_sigma (cp_par p) = None ->
  exists r', plot_sigma_best_fit_vs_scale lg r par = (r', Err ETypeError) /\
    keeps r' n (fun i q => if (q =? par)%string then B i q - fp_prior (cp_par p) else B i q)%Qc P S.
Proof.
  intros Sh H Gp Sg. pose proof (get_par_in _ _ _ Gp) as I. destruct (pos_ok _ _ I) as (Ei & Lp & _).
  destruct (column_some r n par Sh I) as [c Ec]. destruct (keeps_fun r n B P S Sh H) as [F1 F2].
  unfold plot_sigma_best_fit_vs_scale. unfold gc_get_index. rewrite Ei. cbn [rbind]. rewrite Ec. cbn [rbind]. rewrite Gp. cbn [rbind]. rewrite Sg.
  eexists. split; [reflexivity|]. match goal with |- keeps ?x _ _ _ _ => set (r' := x) end.
  assert (Sh' : shaped r' n) by exact Sh.
  refine (keeps_ext _ _ _ _ _ _ _ _ _ _ _ (keeps_own r' n Sh')).
  - intros i q Ii Iq. unfold best_of, r', lr_with_best. cbn [lr_best lr_fit].
    rewrite !(on_column_pos _ _ n) by assumption. destruct (F1 i q Ii Iq) as [-> _]. destruct (q =? par)%string; reflexivity.
  - intros i q Ii Iq. destruct (F1 i q Ii Iq) as [_ ->]. reflexivity.
  - intros i Ii. rewrite (F2 i Ii). reflexivity.
Qed.

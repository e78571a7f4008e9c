(** Reading a search by values of its parameters, arrays without entries, grids that cannot be made. *)
From Coq Require Import Lia.
From Verif Require Import Model.Base Model.PyStr Model.NDArray Model.Param Model.Spectra Model.FitParam Model.Minimise.
From Verif Require Import Spec.ArraySpec Spec.SearchSpec.
From Verif Require Import Proofs.QcLemmas Proofs.NDArrayLemmas Proofs.MinimiseLemmas Proofs.FitParamLemmas Proofs.SearchLemmas.

(** ** Axes of size 1 *)
Lemma sum_first_one a sh : ashape a = 1 :: sh -> exists b, asum_axis 0 a = Ok b /\ ashape b = sh /\ forall j, aget b j = aget a (0 :: j).
Proof.
  intro S. unfold asum_axis, norm_axis, andim. rewrite S. cbn [length]. change ((0 <? 0)%Z) with false. cbv beta iota.
  destruct (Z.ltb_spec 0 (Z.of_nat (Datatypes.S (length sh)))); [|lia]. cbn [Z.leb andb rbind Z.compare]. eexists. split; [reflexivity|]. unfold sum_at; cbn [ashape aget Z.to_nat]. rewrite S. split; [reflexivity|].
  intros j. cbn [nth]. unfold qsumn. cbn. qlra.
Qed.
Lemma squeeze_front_l mid : hd 1 mid <> 1 -> forall k a fuel, ashape a = repeat 1 k ++ mid -> k < fuel ->
  exists b, squeeze_front fuel a = Ok b /\ ashape b = mid /\ forall j, aget b j = aget a (repeat 0 k ++ j).
Proof.
  intros H. induction k as [|k IH]; intros a [|fuel] S L; try lia; cbn [squeeze_front repeat app] in *.
  - exists a. rewrite S. destruct mid as [|n mid]; [now elim H|]. cbn [hd] in H. destruct (Nat.eqb_spec n 1); [contradiction|]. auto.
  - rewrite S. cbn [Nat.eqb]. destruct (sum_first_one a _ S) as (b & -> & Sb & Gb). cbn [rbind]. destruct (IH b fuel Sb ltac:(lia)) as (c & E & Sc & Gc).
    exists c. split; [exact E|]. split; [exact Sc|]. intro j. now rewrite Gc, Gb.
Qed.
Lemma squeeze_front_ones : forall k a fuel, ashape a = repeat 1 k -> k < fuel -> squeeze_front fuel a = Err EIndexError.
Proof.
  induction k as [|k IH]; intros a [|fuel] S L; try lia; cbn [squeeze_front repeat] in *; rewrite S; [reflexivity|].
  cbn [Nat.eqb]. destruct (sum_first_one a _ S) as (b & -> & Sb & Gb). cbn [rbind]. apply (IH b fuel Sb). lia.
Qed.
Lemma last_app_one {A} (l : list A) x d : last (l ++ [x]) d = x.
Proof. induction l as [|y l IH]; [reflexivity|]. cbn. destruct (l ++ [x]) eqn:E; [destruct l; discriminate|exact IH]. Qed.
Lemma squeeze_back_l mid : last mid 1 <> 1 -> forall k a fuel, ashape a = mid ++ repeat 1 k -> k < fuel ->
  exists b, squeeze_back fuel a = Ok b /\ ashape b = mid /\ forall j, valid_idx mid j -> aget b j = aget a (j ++ repeat 0 k).
Proof.
  intros H. assert (Ne : mid <> []) by (intros ->; now elim H).
  assert (H0 : last mid 0 <> 1). { destruct (exists_last Ne) as (m' & x & ->). rewrite last_app_one in *. exact H. }
  induction k as [|k IH]; intros a [|fuel] S L; try lia.
  - cbn [repeat] in *. rewrite app_nil_r in S. exists a. cbn [squeeze_back]. rewrite S. destruct (Nat.eqb_spec (last mid 0) 1); [contradiction|].
    split; [destruct mid; [now elim Ne|reflexivity]|]. split; [reflexivity|]. intros j _. now rewrite app_nil_r.
  - assert (Rp : forall x : nat, repeat x (Datatypes.S k) = repeat x k ++ [x]) by (intro x; clear; induction k as [|k IH]; cbn; [reflexivity|]; cbn in IH; now rewrite <- IH).
    rewrite (Rp 1), app_assoc in S. cbn [squeeze_back]. rewrite S, last_app_one. cbn [Nat.eqb].
    destruct (sum_last_step a _ _ S) as (b & E & Sb & Gb). rewrite E. cbn [rbind]. destruct (IH b fuel Sb ltac:(lia)) as (c & Ec & Sc & Gc).
    exists c. split; [destruct ((mid ++ repeat 1 k) ++ [1]) eqn:Z; [now destruct (mid ++ repeat 1 k)|exact Ec]|]. split; [exact Sc|]. intros j V. rewrite (Gc j V), Gb.
    + rewrite (Rp 0), app_assoc. cbn [qsumn]. qlra.
    + apply Forall2_app; [exact V|]. clear. induction k; constructor; auto.
Qed.
(** Reading by values: axes of one bin at both ends are dropped. *)
Lemma raw_at_squeezed_l g gs ls idx r pen k mid k' :
  grid_of g (gs_pars gs) ls -> ready gs ls -> valid_idx (map (@length Qc) ls) idx ->
  Forall distinguishable ls -> NoDup (map fp_name (gs_pars gs)) -> reads gs idx r pen ->
  gs_per_bin gs = true -> gs_spec gs = repeat 1 k ++ mid ++ repeat 1 k' -> hd 1 mid <> 1 -> last mid 1 <> 1 ->
  exists s, get_raw_stats_at g gs (keywords (gs_pars gs) ls idx) = Ok s /\ ashape s = mid /\
     forall j, valid_idx mid j -> aget s j = content r (repeat 0 k ++ j ++ repeat 0 k').
Proof.
  intros G [R1 R2] V D ND [[s [Es [Ss Hs]]] _] PB SP H1 H2.
  unfold get_raw_stats_at. rewrite (bins_of_ok g _ _ G idx V D ND).
  2: { apply keywords_get; [exact (grid_length _ _ _ G)|exact V|exact ND]. }
  cbn [rbind]. rewrite R1. rewrite norm_prefix_nat by exact V. cbn [rbind].
  unfold get_raw_stat in Es. rewrite Es. cbn [rbind]. rewrite PB in Ss. cbn [answer_shape] in Ss.
  assert (H1' : hd 1 (mid ++ repeat 1 k') <> 1) by (destruct mid; [now elim H1|exact H1]).
  pose proof Ss as Ss'. rewrite SP in Ss. destruct (squeeze_front_l _ H1' k s (Datatypes.S (andim s)) Ss) as (b & -> & Sb & Gb).
  { unfold andim. rewrite Ss, app_length, repeat_length. lia. }
  cbn [rbind]. destruct (squeeze_back_l _ H2 k' b (Datatypes.S (andim b)) Sb) as (c & -> & Sc & Gc).
  { unfold andim. rewrite Sb, app_length, repeat_length. lia. }
  exists c. split; [reflexivity|]. split; [exact Sc|]. intros j Vj. rewrite (Gc j Vj), Gb. apply Hs. rewrite Ss.
  assert (Z : forall m, Forall2 lt (repeat 0 m) (repeat 1 m)) by (induction m; constructor; auto).
  apply Forall2_app; [apply Z|]. apply Forall2_app; [exact Vj|apply Z].
Qed.
Lemma raw_at_ones_l g gs ls idx r pen k :
  grid_of g (gs_pars gs) ls -> ready gs ls -> valid_idx (map (@length Qc) ls) idx ->
  Forall distinguishable ls -> NoDup (map fp_name (gs_pars gs)) -> reads gs idx r pen ->
  gs_per_bin gs = true -> gs_spec gs = repeat 1 k ->
  get_raw_stats_at g gs (keywords (gs_pars gs) ls idx) = Err EIndexError.
Proof.
  intros G [R1 R2] V D ND [[s [Es [Ss Hs]]] _] PB SP.
  unfold get_raw_stats_at. rewrite (bins_of_ok g _ _ G idx V D ND).
  2: { apply keywords_get; [exact (grid_length _ _ _ G)|exact V|exact ND]. }
  cbn [rbind]. rewrite R1. rewrite norm_prefix_nat by exact V. cbn [rbind].
  unfold get_raw_stat in Es. rewrite Es. cbn [rbind]. rewrite PB in Ss. cbn [answer_shape] in Ss. rewrite SP in Ss.
  rewrite (squeeze_front_ones k s _ Ss); [reflexivity|]. unfold andim. rewrite Ss, repeat_length. lia.
Qed.
(** A parameter without a value. *)
Lemma bins_missing_l g kw pre p post : (forall q, In q pre -> exists v b, dget (fp_name q) kw = Some v /\ snd (fp_get_bin g q v) = Ok b) ->
  dget (fp_name p) kw = None -> bins_of g (pre ++ p :: post) kw = Err EKeyError.
Proof.
  unfold bins_of. intros H N. induction pre as [|q pre IH]; cbn [app rmapM].
  - now rewrite N.
  - destruct (H q (or_introl eq_refl)) as (v & b & E1 & E2). rewrite E1, E2. cbn [rbind]. rewrite IH; [reflexivity|]. intros; apply H; now right.
Qed.
Lemma missing_keyword_l g gs kw pre p post : gs_pars gs = pre ++ p :: post ->
  (forall q, In q pre -> exists v b, dget (fp_name q) kw = Some v /\ snd (fp_get_bin g q v) = Ok b) -> dget (fp_name p) kw = None ->
  get_penalty_at g gs kw = Err EKeyError /\ get_raw_stats_at g gs kw = Err EKeyError.
Proof. intros E H N. unfold get_penalty_at, get_raw_stats_at. rewrite E, (bins_missing_l g kw pre p post H N). split; reflexivity. Qed.

(** ** Arrays without entries *)
Lemma find_loop_empty : forall n a coords, length (ashape a) = n -> In 0 (ashape a) -> exists e, find_loop n a coords = Err e.
Proof.
  induction n as [|n IH]; intros a coords L I; [destruct (ashape a); [destruct I|discriminate]|]. cbn [find_loop].
  destruct (argmin_last a) as [new|e] eqn:E; cbn [rbind]; [|eexists; reflexivity].
  match goal with |- exists e, rbind ?x _ = _ => destruct x as [c|e] end; cbn [rbind]; [|eexists; reflexivity].
  destruct (ashape a) as [|h t] eqn:S; [discriminate|]. assert (Ne : h :: t <> []) by discriminate. destruct (exists_last Ne) as (o & m & Eo).
  unfold argmin_last, last_dim in E. rewrite S, Eo, last_app_one in E. destruct m as [|m]; [discriminate|].
  apply IH; unfold min_last; cbn [ashape]; rewrite S, Eo, removelast_last.
  - rewrite Eo, app_length in L. cbn in L. lia.
  - rewrite Eo in I. apply in_app_iff in I as [I|[I|[]]]; [exact I|discriminate].
Qed.
Lemma c_order_empty sh : In 0 sh -> c_order sh = [].
Proof.
  intro I. rewrite c_order_all. destruct (all_idx sh) as [|x l] eqn:E; [reflexivity|]. exfalso.
  pose proof (all_idx_length sh) as L. rewrite E in L. cbn in L. assert (Z : asize sh = 0); [|lia].
  clear -I. unfold asize. induction sh as [|n sh IH]; [destruct I|]. cbn. destruct I as [-> |I]; [reflexivity|]. rewrite (IH I). lia.
Qed.
Lemma empty_minimum_l a : In 0 (ashape a) -> numpy_minimum a = Err EValueError /\ exists e, find_minimum a = Err e.
Proof.
  intro I. unfold numpy_minimum, find_minimum. rewrite (c_order_empty _ I). split; [reflexivity|].
  destruct (find_loop_empty (andim a) a None eq_refl I) as (e & ->). now exists e.
Qed.

(** ** Grids that cannot be made *)
Section Grid.
Context {St : Type} (g : fpar -> res (list Qc)) (f : St -> list Qc -> St * res (sres * Qc)) (pen : Qc -> Qc -> Qc -> res Qc).
Lemma rec_no_grid : forall pre ls p post e, grid_of g pre ls -> Forall (fun l => l <> []) ls -> snd (get_values g p) = Err e ->
  forall vals idxs st, get_values_rec g f (pre ++ p :: post) vals idxs st = (st, Some e).
Proof.
  intros pre ls p post e G. induction G as [|q l pre ls (Gq & ND & _) G IH]; intros N E vals idxs st; cbn [app get_values_rec].
  - now rewrite E.
  - rewrite Gq. inversion N as [|? ? Nl N']; subst. destruct l as [|v l]; [now elim Nl|]. cbn [each].
    destruct (value_at_index_l g q (v :: l) 0 Gq ND) as [w [_ [W1 W2]]]; [cbn; lia|]. cbn in W1. injection W1 as <-. rewrite W2. now rewrite (IH N' E).
Qed.
Lemma no_grid_l st pre ls p post e : gs_pars (ss_gs st) = pre ++ p :: post -> grid_of g pre ls -> Forall (fun l => l <> []) ls -> snd (get_values g p) = Err e ->
  minimise g f pen st = (st, Err e).
Proof. intros Ep G N E. unfold minimise. rewrite Ep. now rewrite (rec_no_grid pre ls p post e G N E). Qed.
End Grid.

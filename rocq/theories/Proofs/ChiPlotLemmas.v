(** Lemmas for C90. *)
From Coq Require Import Lia Reals.
From Verif Require Import Model.Base Model.PyStr Model.NDArray Model.Param Model.Config Model.Spectra Model.Plot Model.ChiPlot.
From Verif Require Import Spec.ChiPlotSpec Proofs.QcLemmas Proofs.NDArrayLemmas Proofs.PlotLemmas.
Local Open Scope list_scope.

Lemma data_l an n k m : regular an n k m -> exists d, chi_data an = Ok d /\ ashape d = [m; n] /\ forall i j, aget d [j; i] = mean_chi an k i j.
Proof.
  intros (_ & _ & S & _). unfold chi_data, average1, asum_axis, norm_axis, andim. rewrite S. cbn [length Z.of_nat Z.ltb Z.compare Z.leb andb Pos.of_succ_nat Pos.succ Pos.compare Pos.compare_cont rbind].
  eexists. split; [reflexivity|]. split.
  - cbn [atranspose ashape amap sum_at]. rewrite S. reflexivity.
  - intros i j. unfold mean_chi, mean. cbn [atranspose aget amap sum_at rev app]. rewrite S. cbn [Z.to_nat Pos.to_nat Pos.iter_op nth]. rewrite qsumn_seq. reflexivity.
Qed.
Lemma flat_len {A} (f : nat -> nat -> A) n m : forall s, length (flat_map (fun j => map (f j) (seq 0 n)) (seq s m)) = n * m.
Proof.
  induction m as [|m IH]; intro s; cbn [seq flat_map]; [cbn; lia|]. rewrite app_length, map_length, seq_length, IH. lia.
Qed.
Lemma mesh_l x y c n m f : length x = n -> length y = m -> ashape c = [m; n] ->
  (forall i j, S i < n -> S j < m -> aget c [j; i] = f i j) ->
  exists ts, pcolormesh x y c = Ok ts /\ pictured x y f ts.
Proof.
  intros X Y S F. unfold pcolormesh. rewrite S, X, Y, !Nat.eqb_refl. cbn [orb andb].
  eexists. split; [reflexivity|]. split; [rewrite X, Y; apply (flat_len (fun j i => Tile _ _ _ _ _))|].
  intro t. rewrite in_flat_map. split.
  - intros (j & J & T). apply in_map_iff in T as (i & <- & I). apply in_seq in I, J. exists i, j. rewrite X, Y.
    split; [lia|]. split; [lia|]. now rewrite (F i j) by lia.
  - intros (i & j & I & J & ->). exists j. split; [apply in_seq; lia|]. apply in_map_iff. exists i. split; [|apply in_seq; lia].
    now rewrite (F i j) by lia.
Qed.
Lemma nonempty_l c n m : ashape c = [m; n] -> 0 < n -> 0 < m -> nonempty c = Ok tt.
Proof. intros S N M. unfold nonempty. rewrite S. cbn. rewrite Nat.mul_1_r. destruct (Nat.eqb_spec (m * n) 0); [lia|reflexivity]. Qed.

Lemma aset_at a y x v y' x' : aget (aset a [y; x] v) [y'; x'] = if (y' =? y) && (x' =? x) then v else aget a [y'; x'].
Proof.
  cbn. rewrite andb_true_r. destruct (Nat.eqb_spec y y'), (Nat.eqb_spec x x'), (Nat.eqb_spec y' y), (Nat.eqb_spec x' x); subst; try congruence; reflexivity.
Qed.
Lemma fill_row_l n y l : forall x a, x + length l <= n ->
  exists b, fill_row n y x l a = Ok b /\ ashape b = ashape a /\
    forall y' x', aget b [y'; x'] = if (y' =? y) && (x <=? x') && (x' <? x + length l) then nth (x' - x) l 0%Qc else aget a [y'; x'].
Proof.
  induction l as [|v l IH]; intros x a L; cbn [fill_row length] in *.
  - exists a. split; [reflexivity|]. split; [reflexivity|]. intros y' x'. destruct (Nat.leb_spec x x'), (Nat.ltb_spec x' (x + 0)); rewrite ?andb_false_r; try lia; reflexivity.
  - destruct (Nat.ltb_spec x n); [|lia]. destruct (IH (S x) (aset a [y; x] v)) as (b & E & Sb & G); [lia|]. exists b. split; [exact E|].
    split; [rewrite Sb; reflexivity|]. intros y' x'. rewrite G, aset_at. destruct (Nat.eqb_spec y' y); cbn [andb]; [|reflexivity].
    destruct (Nat.leb_spec (S x) x'), (Nat.leb_spec x x'), (Nat.ltb_spec x' (S x + length l)), (Nat.ltb_spec x' (x + S (length l))), (Nat.eqb_spec x' x); cbn [andb]; try lia; try reflexivity.
    + replace (x' - x) with (S (x' - S x)) by lia. reflexivity.
    + subst. rewrite Nat.sub_diag. reflexivity.
Qed.
Lemma fill_row_long n y l : forall x a, x <= n -> n < x + length l -> fill_row n y x l a = Err EIndexError.
Proof.
  induction l as [|v l IH]; intros x a X L; cbn [fill_row length] in *; [lia|]. destruct (Nat.ltb_spec x n); [|reflexivity]. apply IH; lia.
Qed.
Lemma fill_rows_l n l todo : length l <= n -> forall y a,
  exists b, fill_rows n y todo l a = Ok b /\ ashape b = ashape a /\
    forall y' x', aget b [y'; x'] = if (y <=? y') && (y' <? y + todo) && (x' <? length l) then nth x' l 0%Qc else aget a [y'; x'].
Proof.
  intro L. induction todo as [|k IH]; intros y a; cbn [fill_rows].
  - exists a. split; [reflexivity|]. split; [reflexivity|]. intros y' x'. destruct (Nat.leb_spec y y'), (Nat.ltb_spec y' (y + 0)); try lia; reflexivity.
  - destruct (fill_row_l n y l 0 a ltac:(lia)) as (b & E & Sb & G). rewrite E. cbn [rbind]. destruct (IH (S y) b) as (c & Ec & Sc & Gc). exists c.
    split; [exact Ec|]. split; [congruence|]. intros y' x'. rewrite Gc, G. rewrite Nat.sub_0_r. change (0 <=? x') with true. change (0 + length l) with (length l). rewrite andb_true_r.
    destruct (Nat.leb_spec (S y) y'), (Nat.leb_spec y y'), (Nat.ltb_spec y' (S y + k)), (Nat.ltb_spec y' (y + S k)), (Nat.eqb_spec y' y), (x' <? length l); cbn [andb]; try lia; reflexivity.
Qed.
Lemma fill_penalties_l m n l : forall y a, y + length l <= m ->
  exists b, fill_penalties m n y l a = Ok b /\ ashape b = ashape a /\
    forall y' x', x' < n -> aget b [y'; x'] = if (y <=? y') && (y' <? y + length l) then nth (y' - y) l 0%Qc else aget a [y'; x'].
Proof.
  induction l as [|v l IH]; intros y a L; cbn [fill_penalties length] in *.
  - exists a. split; [reflexivity|]. split; [reflexivity|]. intros y' x' _. destruct (Nat.leb_spec y y'), (Nat.ltb_spec y' (y + 0)); try lia; reflexivity.
  - destruct (Nat.ltb_spec y m); [|lia]. destruct (fill_row_l n y (repeat v n) 0 a) as (b & E & Sb & G); [rewrite repeat_length; lia|]. rewrite E. cbn [rbind].
    destruct (IH (S y) b) as (c & Ec & Sc & Gc); [lia|]. exists c. split; [exact Ec|]. split; [congruence|]. intros y' x' X. rewrite (Gc _ _ X), G, repeat_length.
    change (0 <=? x') with true. change (0 + n) with n. rewrite andb_true_r, Nat.sub_0_r.
    destruct (Nat.ltb_spec x' n); [|lia]. rewrite andb_true_r.
    destruct (Nat.leb_spec (S y) y'), (Nat.leb_spec y y'), (Nat.ltb_spec y' (S y + length l)), (Nat.ltb_spec y' (y + S (length l))), (Nat.eqb_spec y' y); cbn [andb]; try lia; try reflexivity.
    + replace (y' - y) with (S (y' - S y)) by lia. reflexivity.
    + subst. rewrite Nat.sub_diag. cbn [nth]. rewrite nth_indep with (d' := v) by (rewrite repeat_length; lia). apply nth_repeat.
Qed.

Lemma map_l an n k m preferred minima : regular an n k m -> length (fst (an_minima an)) = length (snd (an_minima an)) ->
  exists ts, chi_squared_map an preferred minima = Ok (ts,
      (if preferred then [List.combine (an_counts an) (map (fun i => mean k (fun t => aget (an_preferred an) [i; t])) (seq 0 n))] else []) ++
      (if minima then [List.combine (fst (an_minima an)) (snd (an_minima an))] else [])) /\
    pictured (an_counts an) (an_values an) (mean_chi an k) ts.
Proof.
  intros R M. destruct (data_l an n k m R) as (d & E & Sd & G). destruct R as (Lx & Ly & _ & Sp & N & K & Mm). unfold chi_squared_map. rewrite E. cbn [rbind].
  assert (P : exists p, average1 (an_preferred an) = Ok p /\ items1 p = Ok (map (fun i => mean k (fun t => aget (an_preferred an) [i; t])) (seq 0 n))).
  { unfold average1, asum_axis, norm_axis, andim. rewrite Sp. cbn [length Z.of_nat Z.ltb Z.compare Z.leb andb Pos.of_succ_nat Pos.succ Pos.compare Pos.compare_cont rbind].
    eexists. split; [reflexivity|]. unfold items1. cbn [amap sum_at ashape]. change (Z.to_nat 1) with 1. rewrite Sp. cbn [remove_at].
    f_equal. apply map_ext. intro i. unfold mean. cbn [aget amap sum_at]. rewrite Sp. cbn [nth]. rewrite qsumn_seq. reflexivity. }
  destruct P as (p & -> & P). cbn [rbind]. rewrite P. cbn [rbind]. rewrite (nonempty_l d n m Sd N Mm). cbn [rbind].
  destruct (mesh_l _ _ d n m (mean_chi an k) Lx Ly Sd (fun i j _ _ => G i j)) as (ts & T & Pic). rewrite T. cbn [rbind]. exists ts. split; [|exact Pic].
  unfold plot_line. rewrite map_length, seq_length, Lx, M, !Nat.eqb_refl. destruct preferred, minima; reflexivity.
Qed.
Lemma turn_on_l an conf n k m : regular an n k m -> length (sc_chis conf) = n ->
  exists ts, turn_on an conf = Ok ts /\ pictured (an_counts an) (an_values an) (fun i j => mean_chi an k i j - nth i (sc_chis conf) 0)%Qc ts.
Proof.
  intros R L. destruct (data_l an n k m R) as (d & E & Sd & G). destruct R as (Lx & Ly & _ & Sp & N & K & Mm). unfold turn_on. rewrite E. cbn [rbind]. rewrite Sd.
  destruct (fill_rows_l n (sc_chis conf) m ltac:(lia) 0 (azeros [m; n])) as (b & Eb & Sb & Gb). rewrite Eb. cbn [rbind].
  rewrite (nonempty_l (aminus d b) n m Sd N Mm). cbn [rbind]. apply (mesh_l _ _ (aminus d b) n m); try assumption.
  intros i j I J. cbn [aminus aget]. rewrite G, Gb. cbn [Nat.leb Nat.add andb]. destruct (Nat.ltb_spec j m); [|lia]. destruct (Nat.ltb_spec i (length (sc_chis conf))); [reflexivity|lia].
Qed.
Lemma turn_on_long an conf n k m : regular an n k m -> n < length (sc_chis conf) -> turn_on an conf = Err EIndexError.
Proof.
  intros R L. destruct (data_l an n k m R) as (d & E & Sd & G). destruct R as (Lx & Ly & _ & Sp & N & K & Mm). unfold turn_on. rewrite E. cbn [rbind]. rewrite Sd.
  destruct m as [|m]; [lia|]. cbn [fill_rows]. rewrite fill_row_long by lia. reflexivity.
Qed.
Lemma push_pull_l an n k m : regular an n k m -> m <= length (snd (an_penalties an)) ->
  exists ts, push_pull an = Ok ts /\ pictured (an_counts an) (an_values an) (fun i j => nq 2 * nth j (snd (an_penalties an)) 0 - mean_chi an k i j)%Qc ts.
Proof.
  intros R L. destruct (data_l an n k m R) as (d & E & Sd & G). destruct R as (Lx & Ly & _ & Sp & N & K & Mm). unfold push_pull. rewrite E. cbn [rbind]. rewrite Sd, Ly.
  destruct (fill_penalties_l m n (firstn m (snd (an_penalties an))) 0 (azeros [m; n])) as (b & Eb & Sb & Gb); [rewrite firstn_length; lia|]. rewrite Eb. cbn [rbind].
  set (c := aminus (amap _ b) d). assert (Sc : ashape c = [m; n]) by exact Sb.
  rewrite (nonempty_l c n m Sc N Mm). cbn [rbind]. apply (mesh_l _ _ c n m); try assumption.
  intros i j I J. unfold c. cbn [aminus aget amap]. rewrite G, Gb by lia. rewrite firstn_length_le by lia. cbn [Nat.leb Nat.add andb]. destruct (Nat.ltb_spec j m); [|lia].
  rewrite Nat.sub_0_r. do 2 f_equal. clear - H. revert j H. generalize (snd (an_penalties an)) as l. induction m as [|m IH]; intros l j J; [lia|].
  destruct l as [|a l]; [destruct j; reflexivity|]. destruct j as [|j]; [reflexivity|]. cbn. apply IH. lia.
Qed.
Lemma nth_mesh x y c d n m : length x = n -> length y = m -> ashape c = [m; n] -> ashape d = [m; n] ->
  (forall i j, S i < n -> S j < m -> aget c [j; i] = aget d [j; i]) -> pcolormesh x y c = pcolormesh x y d.
Proof.
  intros X Y Sc Sd F. unfold pcolormesh. rewrite Sc, Sd. destruct (_ && _); [|reflexivity]. f_equal.
  rewrite !flat_map_concat_map. f_equal. apply map_ext_in. intros j J. apply map_ext_in. intros i I. apply in_seq in I, J. rewrite (F i j) by lia. reflexivity.
Qed.
Lemma mean_ext k f g : (forall t, t < k -> f t = g t) -> mean k f = mean k g.
Proof. intro H. unfold mean. f_equal. f_equal. apply map_ext_in. intros t T. apply in_seq in T. apply H. lia. Qed.
Lemma last_l an bn conf n k m : same_but_last an bn n k m ->
  rmap fst (chi_squared_map an false false) = rmap fst (chi_squared_map bn false false) /\ turn_on an conf = turn_on bn conf /\ push_pull an = push_pull bn.
Proof.
  intros (Ra & Rb & Ex & Ey & Ep & H). destruct (data_l an n k m Ra) as (d & Ed & Sd & Gd). destruct (data_l bn n k m Rb) as (e & Ee & Se & Ge).
  assert (M : forall i j, S i < n -> S j < m -> mean_chi an k i j = mean_chi bn k i j).
  { intros i j I J. unfold mean_chi. apply mean_ext. intros t T. now apply H. }
  destruct Ra as (Lx & Ly & _ & Sp & N & K & Mm). destruct Rb as (_ & _ & _ & Sp' & _).
  assert (P : forall z, ashape z = [n; k] -> exists p l, average1 z = Ok p /\ items1 p = Ok l).
  { intros z Sz. unfold average1, asum_axis, norm_axis, andim. rewrite Sz. cbn [length Z.of_nat Z.ltb Z.compare Z.leb andb Pos.of_succ_nat Pos.succ Pos.compare Pos.compare_cont rbind].
    eexists. eexists. split; [reflexivity|]. unfold items1. cbn [amap sum_at ashape]. change (Z.to_nat 1) with 1. rewrite Sz. reflexivity. }
  split; [|split].
  - unfold chi_squared_map. rewrite Ed, Ee. cbn [rbind]. destruct (P _ Sp) as (p & l & -> & Q). destruct (P _ Sp') as (p' & l' & -> & Q'). cbn [rbind]. rewrite Q, Q'. cbn [rbind].
    rewrite (nonempty_l d n m), (nonempty_l e n m) by assumption. cbn [rbind]. rewrite <- Ex, <- Ey.
    rewrite (nth_mesh (an_counts an) (an_values an) d e n m) by (try assumption; intros i j I J; rewrite Gd, Ge; auto).
    destruct (pcolormesh _ _ e); reflexivity.
  - unfold turn_on. rewrite Ed, Ee. cbn [rbind]. rewrite Sd, Se. destruct (fill_rows _ _ _ _ _) as [b|]; [|reflexivity]. cbn [rbind].
    rewrite (nonempty_l (aminus d b) n m), (nonempty_l (aminus e b) n m) by assumption. cbn [rbind]. rewrite <- Ex, <- Ey.
    apply (nth_mesh _ _ _ _ n m); try assumption. intros i j I J. cbn [aminus aget]. rewrite Gd, Ge, M; auto.
  - unfold push_pull. rewrite Ed, Ee. cbn [rbind]. rewrite Sd, Se, <- Ep, <- Ey.
    destruct (fill_penalties m n 0 _ _) as [b|] eqn:Eb; [|reflexivity]. cbn [rbind].
    assert (Sb : ashape b = [m; n]).
    { destruct (Nat.le_gt_cases (length (firstn (length (an_values an)) (snd (an_penalties an)))) m) as [L|L]; [|rewrite firstn_length in L; lia].
      destruct (fill_penalties_l m n _ 0 (azeros [m; n]) L) as (b' & E' & S' & _). rewrite E' in Eb. injection Eb as ->. exact S'. }
    rewrite (nonempty_l (aminus (amap _ b) d) n m), (nonempty_l (aminus (amap _ b) e) n m) by assumption. cbn [rbind]. rewrite <- Ex.
    apply (nth_mesh _ _ _ _ n m); try assumption. intros i j I J. cbn [aminus aget amap]. rewrite Gd, Ge, M; auto.
Qed.
Lemma root_points_l point l : forall x y, length x = length y -> Forall2 (fun c a => point c = Ok a) x l -> root_points point x y = Ok (List.combine l y).
Proof.
  intros x y L H. revert y L. induction H as [|c a x l P H IH]; intros y L; destruct y as [|v y]; try discriminate L; [reflexivity|].
  cbn [root_points]. rewrite P. cbn [rbind]. rewrite IH by (injection L; auto). reflexivity.
Qed.

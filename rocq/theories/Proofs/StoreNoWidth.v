(** get_limit with stored results when a parameter of the fit has no width. *)
From Coq Require Import Permutation Lia.
From Verif Require Import Model.Base Model.PyStr Model.NDArray Model.Param Model.Config Model.Spectra Model.FitParam Model.FitConfig.
From Verif Require Import Model.Minimise Model.Store Model.Results Model.Limit Model.LimitStore.
From Verif Require Import Spec.ArraySpec Spec.LimitSpec Spec.ConfigSpec Spec.StoreSpec Spec.ResultsSpec Spec.LimitStoreSpec.
From Verif Require Import Proofs.QcLemmas Proofs.NDArrayLemmas Proofs.DictLemmas Proofs.MinimiseLemmas Proofs.LimitLemmas Proofs.PreConvLemmas Proofs.ResultLemmas Proofs.ResultsLemmas.
Local Open Scope nat_scope.
From Verif Require Import Proofs.LimitStoreLemmas.

Lemma no_width_report r n B P S full i fd x : ready r n -> ~ widths r -> keeps r n B P S -> i < n -> make_report r full i fd x = Err ETypeError.
Proof.
  intros Rd W K Hi. unfold make_report. replace (rmapM (log_par r i) (gc_get_pars (lr_fit r))) with (@Err (list (string * (Qc * Qc * Qc * Qc))) ETypeError); [reflexivity|]. symmetry.
  pose proof Rd as (Sh & _). pose proof Sh as (N & _).
  assert (Z : forall l, (forall ke, In ke l -> In ke (gc_pars (lr_fit r))) -> ~ Forall (fun ke => fp_sigma (cp_par (ge_par (snd ke))) <> None) l -> rmapM (log_par r i) (map fst l) = Err ETypeError).
  { induction l as [|[par en] l IH]; intros Sub NW; [exfalso; apply NW; constructor|]. cbn [map fst rmapM].
    assert (I : In (par, en) (gc_pars (lr_fit r))) by (apply Sub; now left).
    assert (Ip : In par (gc_get_pars (lr_fit r))) by (unfold gc_get_pars, dkeys; apply in_map_iff; now exists (par, en)).
    destruct K as (K & _). destruct (K (Z.of_nat i) i par (refers_nat n i) Hi Ip) as [K1 K2].
    assert (E : log_par r i par = match fp_sigma (cp_par (ge_par en)) with Some s => Ok (par, (B i par, fp_prior (cp_par (ge_par en)), s, P i par)) | None => Err ETypeError end).
    { unfold log_par, gc_get_par. rewrite (dlookup_entry _ _ _ N I). cbn [rmap rbind]. rewrite K1. cbn [rbind]. destruct (fp_sigma _); [|reflexivity]. cbn [rbind]. now rewrite K2. }
    rewrite E. destruct (fp_sigma (cp_par (ge_par en))) as [s|] eqn:Es; [|reflexivity]. cbn [rbind].
    rewrite IH; [reflexivity|intros ke H; apply Sub; now right|]. intro F. apply NW. constructor; [cbn [snd]; congruence|exact F]. }
  apply Z; [auto|exact W].
Qed.

Section NoWidth.
Context {St : Type} (fit : St -> option Qc -> St * res fitsum) (lg : fpar -> res (list Qc)) (dec : nat -> string) (base : string).
Lemma no_width_call now rq (w : world (St := St)) scales s1 m s2 fs :
  ready (w_res w) (length scales) -> ~ widths (w_res w) -> lr_get_scales lg (w_res w) = Ok scales -> scales <> [] ->
  reference fit (w_fit w) (rq_min rq) s1 m -> fits_run fit s1 scales s2 fs ->
  Forall (full_summary (gc_get_pars (lr_fit (w_res w)))) fs ->
  let n := length scales in
  exists r', limit_call fit lg dec base now rq w = (World s2 r' (w_disk w) (w_log w), Err ETypeError) /\
    keeps r' n (best_at fs) (pen_at fs) (fun i => stat_at fs i - m)%Qc.
Proof.
  intros Rd W SC NE RF FR FS n. assert (LF := fits_run_length fit _ _ _ _ FR). fold n in LF.
  assert (P : 0 < n) by (unfold n; destruct scales; [congruence|cbn; lia]).
  pose proof Rd as (Sh & [(rate & n' & sub & R & En & S1 & S2 & S3 & S4) FF] & _).
  assert (Hn : n' = n). { pose proof Sh as (_ & X & _). rewrite X in S1. fold n in S1. congruence. } rewrite Hn in *. clear Hn n'.
  unfold limit_call, dlookup. rewrite R. rewrite (reference_l fit w rq s1 m RF), SC, <- En.
  destruct (scan_l fit n (rq_fits rq) scales fs s1 s2 (w_res w) (azeros [n]) 0 _ _ _ FR eq_refl Sh S4 (keeps_own _ _ Sh) eq_refl FS)
    as (r1 & stats & E1 & Sh1 & R1 & LF1 & K1 & SS & V & N1).
  rewrite E1. set (delta := amap (fun x => x - m)%Qc stats). assert (SD : ashape delta = [n]) by exact SS.
  assert (VD : forall j, j < n -> aget delta [j] = (stat_at fs j - m)%Qc).
  { intros j Hj. unfold delta. cbn [amap aget]. rewrite V by exact Hj. cbn [Nat.ltb Nat.leb]. now rewrite Nat.sub_0_r. }
  rewrite SD, c_order_one, map_map. set (v := fun j => aget delta [j]).
  destruct (argmin_list_spec (map v (seq 0 n))) as (b & A1 & A2 & A3 & A4 & A5). { destruct n; [lia|discriminate]. }
  rewrite map_length, seq_length in A2, A4. 
  replace (map (fun x => aget delta [x]) (seq 0 n)) with (map v (seq 0 n)) by reflexivity. rewrite A1.
  assert (VV : forall j, j < n -> nth j (map v (seq 0 n)) 0%Qc = (stat_at fs j - m)%Qc).
  { intros j Hj. rewrite nth_map_seq by exact Hj. now apply VD. }
  rewrite VV in A3 by exact A2. rewrite <- A3 in A4, A5.
  assert (FL : first_least (stat_at fs) n b).
  { split; [exact A2|]. split; intros j Hj.
    - specialize (A4 j Hj). rewrite VV in A4 by exact Hj. qlra.
    - specialize (A5 j Hj). rewrite VV in A5 by lia. qlra. }
  destruct (with_stats_l r1 n _ _ _ delta Sh1 K1 SD) as [Sh2 K2]. set (r2 := lr_with_stats r1 delta) in *.
  assert (K : keeps r2 n (best_at fs) (pen_at fs) (fun i => stat_at fs i - m)%Qc).
  { refine (keeps_ext r2 n _ _ _ _ _ _ _ _ _ K2); [| |exact VD]; intros; cbn [Nat.ltb Nat.leb]; now rewrite Nat.sub_0_r. }
  clear K1 K2. assert (R2 : same_rest r2 (w_res w)) by exact R1.
  assert (N2 : rq_fits rq = true -> forall i, i < length fs -> nth_error (lr_fits r2) i = option_map (fun x => Some (snd x)) (fm_results (nth i fs no_sum))).
  { intros H i Hi. change (lr_fits r2) with (lr_fits r1). rewrite N1 by lia. rewrite H. cbn [Nat.ltb Nat.leb negb andb]. now rewrite Nat.sub_0_r. }
  assert (Rd2 : ready r2 n).
  { apply (ready_from (w_res w)); [exact Rd|exact Sh2|exact R2|exact LF1|]. change (lr_fits r2) with (lr_fits r1).
    apply Forall_forall. intros o Ho. apply In_nth_error in Ho as (j & Hj).
    assert (Lj : j < n) by (rewrite <- LF1; apply nth_error_Some; congruence). rewrite N1 in Hj by exact Lj.
    destruct (rq_fits rq && negb (j <? 0))%bool.
    - rewrite Nat.sub_0_r in Hj. rewrite Forall_forall in FS. destruct (FS (nth j fs no_sum)) as (l & gs & E & _ & X & Y); [apply nth_In; lia|].
      rewrite E in Hj. cbn in Hj. injection Hj as <-. auto.
    - apply nth_error_In in Hj. unfold fine_fits in FF. rewrite Forall_forall in FF. exact (FF o Hj). }
  assert (Wd : ~ widths r2). { unfold widths. destruct R2 as (_ & -> & _). exact W. }
  set (T := full_at (gc_get_pars (lr_fit (w_res w))) fs m).
  assert (PR : gc_get_pars (lr_fit r2) = gc_get_pars (lr_fit (w_res w))). { destruct R2 as (_ & -> & _). reflexivity. }
  assert (FU : lr_get_full_stats r2 = Ok (map T (seq 0 n))). { destruct K as (_ & _ & _ & _ & K). rewrite K, PR. reflexivity. }
  rewrite FU. assert (LT : length (map T (seq 0 n)) = n) by now rewrite map_length, seq_length.
  assert (RP := fun i fd x (Hi : i < n) => no_width_report r2 n _ _ _ (map T (seq 0 n)) i fd x Rd2 Wd K Hi).
  exists r2. split; [|exact K]. unfold found. rewrite LT.
  assert (FRW := first_row_spec (fun i => qlt (rq_limit rq) (nth i (map T (seq 0 n)) 0%Qc)) b (n - b) b eq_refl).
  destruct (first_row _ (seq b (n - b))) as [j|].
  - destruct FRW as (F1 & F2 & F3). rewrite (nth_error_nth' scales 0%Qc) by (unfold n in F1; lia).
    rewrite RP by lia. cbn [app]. now rewrite app_nil_r.
  - unfold not_found.
    destruct (argmin_list_spec (map Qcopp (skipn b (map T (seq 0 n))))) as (k & K1 & K2 & K3 & K4 & K5).
    { intro Z. apply (f_equal (@length _)) in Z. rewrite map_length, skipn_length, LT in Z. cbn in Z. lia. }
    rewrite map_length, skipn_length, LT in K2. rewrite K1. cbn [rbind].
    rewrite (nth_error_nth' scales 0%Qc) by (fold n; lia). cbn [rbind]. rewrite RP by lia. cbn [app]. now rewrite app_nil_r.
Qed.
End NoWidth.

(** Bins of a plain Parameter. *)
From Coq Require Import Lia.
From Verif Require Import Model.Base Model.Param Spec.AxisSpec Proofs.QcLemmas Proofs.ParamLemmas.

Lemma plain_bin_l p x : wf_axis p ->
  base_get_bin p x = Ok (qtrunc ((x - sp_low p) / bin_width p))%Qc /\
  ((sp_low p <= x)%Qc -> (x <= sp_high p)%Qc -> base_get_bin p x = get_bin p x).
Proof.
  intros W. pose proof W as (W1 & W2).
  assert (D : (sp_high p - sp_low p)%Qc <> 0%Qc) by (intro E; qlra).
  assert (N : zq (sp_bins p) <> 0%Qc) by (apply Qc_pos_neq, zq_pos, W2).
  assert (E : base_get_bin p x = Ok (qtrunc ((x - sp_low p) / bin_width p))%Qc).
  { unfold base_get_bin. rewrite qdiv_ok by exact D. cbn [rbind]. do 2 f_equal. unfold bin_width. field. split; assumption. }
  split; [exact E|]. intros L H. rewrite E. unfold get_bin.
  destruct (qltP x (sp_low p)); [exfalso; qlra|]. destruct (qltP (sp_high p) x); [exfalso; qlra|].
  rewrite get_width_ok by exact W. cbn [rbind]. rewrite qdiv_ok by (apply width_neq, W). reflexivity.
Qed.

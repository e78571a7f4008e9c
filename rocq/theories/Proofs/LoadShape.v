(** What is loaded from any file. *)
From Coq Require Import Lia.
From Verif Require Import Model.Base Model.PyStr Model.NDArray Model.Param Model.Config Model.Spectra Model.FitParam Model.FitConfig Model.Minimise Model.Store.
From Verif Require Import Spec.LoadShapeSpec.
From Verif Require Import Proofs.QcLemmas Proofs.DictLemmas Proofs.CrashLemmas Proofs.NDArrayLemmas.
Local Open Scope string_scope.
Local Open Scope list_scope.

Lemma get_data_inv k m a : get_data k m = Ok a -> dget k m = Some (HData a).
Proof. unfold get_data, dlookup. destruct (dget k m) as [[b|? ?]|]; cbn; try discriminate. now intros [= ->]. Qed.
Lemma get_group_inv k m g n a : get_group k m = Ok g -> dget n (snd g) = Some a -> dget k m = Some (HGroup (fst g) (snd g)).
Proof. unfold get_group, dlookup. destruct (dget k m) as [[b|a' m']|]; cbn; try discriminate; intros [= <-]; [discriminate|reflexivity]. Qed.
Lemma attr_str_inv k a s : attr_str k a = Ok s -> dget k a = Some (AStr s).
Proof. unfold attr_str, attr, dlookup. destruct (dget k a) as [[]|]; cbn; try discriminate. now intros [= ->]. Qed.
Lemma fit_results_l e f fr : load_fit_results e f = Ok fr -> fits_its_configuration fr /\ exists r, f = Some r /\ holds_results r fr.
Proof.
  destruct f as [r|]; [|discriminate]. cbn [load_fit_results]. intro H.
  destruct (get_group "fit_results" (r_members r)) as [gr|] eqn:G; [cbn [rbind] in H|discriminate].
  destruct (attr_str "name" (fst gr)) as [name|] eqn:E1; [cbn [rbind] in H|discriminate].
  destruct (attr_str "spectra_config_name" (fst gr)) as [sname|] eqn:E2; [cbn [rbind] in H|discriminate].
  destruct (attr_json "spectra_config" (fst gr)) as [j|] eqn:E3; [cbn [rbind] in H|discriminate].
  destruct (sc_load j) as [cfg|] eqn:E4; [cbn [rbind] in H|discriminate].
  destruct (attr_str "fit_config_name" (fst gr)) as [fname|] eqn:E5; [cbn [rbind] in H|discriminate].
  destruct (attr_json2 "fit_config" (fst gr)) as [jj|] eqn:E6; [cbn [rbind] in H|discriminate].
  destruct (gc_load e (fst jj) (Some (snd jj)) fname) as [g|] eqn:E7; [cbn [rbind] in H|discriminate].
  destruct (get_data "stats" (snd gr)) as [stats|] eqn:E8; [cbn [rbind] in H|discriminate].
  set (P := fit_shape (gc_fpars g)) in *. set (C := spec_shape cfg) in *.
  assert (X : exists pb : bool, ashape stats = P ++ (if pb then C else []) /\
    (do gs <- set_stats (fr_search (new_results g cfg sname (Some name) pb)) stats; do pen <- get_data "penalty_terms" (snd gr);
     do gs <- set_penalty_terms gs pen; do n <- attr_int "resets" (fst gr); Ok (FR (gs_with_resets gs (Z.to_nat n)) g cfg sname)) = Ok fr).
  { destruct (idx_eqb (ashape stats) P) eqn:B; [cbn [rbind] in H; exists false; split; [apply idx_eqb_eq in B; now rewrite app_nil_r|exact H]|].
    destruct (idx_eqb (ashape stats) (P ++ C)) eqn:B'; [|discriminate]. cbn [rbind] in H. exists true. split; [now apply idx_eqb_eq in B'|exact H]. }
  clear H. destruct X as (pb & S & H). unfold set_stats in H. cbn [new_results fr_search new_search gs_stats azeros ashape] in H.
  destruct (shape_eqb _ _) in H; [cbn [rbind] in H|discriminate].
  destruct (get_data "penalty_terms" (snd gr)) as [pen|] eqn:E9; [cbn [rbind] in H|discriminate].
  unfold set_penalty_terms in H. cbn [gs_with new_results fr_search new_search gs_pars] in H. destruct (shape_eqb _ _) eqn:B in H; [cbn [rbind] in H|discriminate].
  apply idx_eqb_eq in B. destruct (attr_int "resets" (fst gr)) as [n|] eqn:E10; [cbn [rbind] in H|discriminate]. injection H as <-.
  split.
  - assert (EP : P = bins_of_fit g) by (unfold P, fit_shape, gc_fpars, bins_of_fit; now rewrite map_map).
    assert (EC : C = bins_of_spectrum cfg) by (unfold C, spec_shape, get_shape, bins_of_spectrum; now rewrite map_map).
    unfold fits_its_configuration. cbn [fr_search fr_fit fr_spec gs_with_resets gs_with gs_pars gs_spec gs_pen gs_stats gs_per_bin new_results new_search]. rewrite <- EP, <- EC.
    split; [reflexivity|]. split; [reflexivity|]. split; [exact B|exact S].
  - exists r. split; [reflexivity|]. exists (fst gr), (snd gr). split; [eapply get_group_inv; [exact G|eapply get_data_inv; exact E8]|]. cbn. split; [now apply get_data_inv|]. split; [now apply get_data_inv|].
    exists name. split; [now apply attr_str_inv|reflexivity].
Qed.

(** ** Limit results *)
Lemma load_fits_range dec m best c n fname : forall is g g' l, load_fits dec m best c n fname is g = Ok (g', l) ->
  Forall (fun ig => fst ig < n /\ gs_per_bin (snd ig) = false /\ gs_spec (snd ig) = spec_shape c) l.
Proof.
  induction is as [|i is IH]; intros g g' l; cbn [load_fits]; [intros [= <- <-]; constructor|]. intro H. repeat bind_step H.
  destruct (qeq _ _) in H; [|exact (IH _ _ _ H)]. repeat bind_step H. destruct (_ && _)%bool in H; [discriminate|]. cbn zeta in H.
  destruct (Nat.leb_spec n i); [discriminate|]. bind_step H. match goal with E : load_fits _ _ _ _ _ _ is _ = Ok ?q |- _ => destruct q as [g2 l2] end. injection H as <- <-. constructor; [cbn; auto|]. eapply IH. eassumption.
Qed.
Lemma limit_results_l dec e f lr : load_limit_results dec e f = Ok lr -> exists rate, dget "rate" (sf_pars (lr_limit lr)) = Some rate /\
  length (lr_fits lr) = Z.to_nat (fp_bins (cp_par rate)) /\
  (forall i gs, nth_error (lr_fits lr) i = Some (Some gs) -> gs_per_bin gs = false /\ gs_spec gs = bins_of_spectrum (lr_spec lr)) /\
  exists r a m, f = Some r /\ dget "limit_results" (r_members r) = Some (HGroup a m) /\ dget "stats" m = Some (HData (lr_stats lr)) /\ dget "name" a = Some (AStr (lr_name lr)).
Proof.
  destruct f as [r|]; [|discriminate]. cbn [load_limit_results]. intro H. repeat bind_step H. cbn zeta in H. repeat bind_step H. injection H as <-.
  match goal with E : new_limit_results _ _ _ _ _ = Ok _ |- _ => unfold new_limit_results in E; bind_step E; injection E as <- end. cbn [lr_limit lr_fits lr_stats lr_name lr_spec] in *.
  match goal with E : dlookup "rate" _ = Ok ?c |- _ => exists c; unfold dlookup in E; destruct (dget "rate" _) as [c'|] eqn:ER; [injection E as ->|discriminate] end.
  split; [reflexivity|]. rewrite repeat_length in *. split; [unfold place; now rewrite map_length, seq_length|]. split.
  - intros i gs N. unfold place in N. apply nth_error_In in N. apply in_map_iff in N as (k & F & _). destruct (find _ _) as [[i' gs']|] eqn:FF; [|discriminate]. injection F as <-.
    apply find_some in FF as (FF & _).
    assert (G : Forall (fun ig => fst ig < Z.to_nat (fp_bins (cp_par a15)) /\ gs_per_bin (snd ig) = false /\ gs_spec (snd ig) = spec_shape a2) (snd a14)).
    { destruct (qeq a13 1) in E14; [|injection E14 as <-; constructor]. destruct (ashape a12) as [|k0 ?] in E14; [discriminate|]. destruct a14. eapply load_fits_range; exact E14. }
    rewrite Forall_forall in G. destruct (G _ FF) as (_ & G1 & G2). split; [exact G1|]. etransitivity; [exact G2|]. unfold spec_shape, get_shape, bins_of_spectrum. now rewrite map_map.
  - match goal with E : get_group "limit_results" _ = Ok ?g, E1 : get_data "stats" _ = Ok _ |- _ => exists r, (fst g), (snd g); split; [reflexivity|]; split; [eapply get_group_inv; [exact E|eapply get_data_inv; exact E1]|]; split; [eapply get_data_inv; exact E1|] end.
    match goal with E : attr_str "name" _ = Ok _ |- _ => eapply attr_str_inv; exact E end.
Qed.

(** Lemmas for Model/PreConv.v. *)
From Coq Require Import Lia.
From Verif Require Import Model.Base Model.PyStr Model.PreConv Spec.NameSpec.
From Verif Require Import Proofs.DictLemmas Proofs.StrLemmas.
Local Open Scope string_scope.
Local Open Scope list_scope.

Lemma occurs_has c s : occurs c s = has_char c s.
Proof. induction s as [|a s IH]; cbn; [reflexivity|]. rewrite IH. reflexivity. Qed.
Lemma occurs_app c a b : occurs c (a ++ b)%string = occurs c a || occurs c b.
Proof. induction a as [|x a IH]; cbn; [reflexivity|]. rewrite IH. apply orb_assoc. Qed.
Lemma ends_with_iff suf s : ends_with suf s = true <-> exists a, s = (a ++ suf)%string.
Proof.
  induction s as [|x s IH]; cbn.
  - rewrite orb_false_r, String.eqb_eq. split.
    + intros ->. exists "". reflexivity.
    + intros (a & E). destruct a; [symmetry; exact E|discriminate].
  - rewrite orb_true_iff, String.eqb_eq, IH. split.
    + intros [->|(a & ->)]; [exists ""|exists (String x a)]; reflexivity.
    + intros (a & E). destruct a as [|y a]; [left; symmetry; exact E|right]. cbn in E. injection E as _ E. exists a. exact E.
Qed.
Lemma ends_with_false suf s : ends_with suf s = false <-> (forall a, s <> (a ++ suf)%string).
Proof.
  split.
  - intros H a E. assert (T : ends_with suf s = true) by (apply ends_with_iff; exists a; exact E). congruence.
  - intro H. destruct (ends_with suf s) eqn:E; [|reflexivity]. apply ends_with_iff in E as (a & ->). exfalso. eapply H. reflexivity.
Qed.
Lemma substring_all s : substring 0 (String.length s) s = s.
Proof. induction s as [|a s IH]; cbn; [reflexivity|]. rewrite IH. reflexivity. Qed.
Lemma substring_long n s : String.length s <= n -> substring 0 n s = s.
Proof.
  revert n. induction s as [|a s IH]; intros n H; destruct n; cbn in *; try reflexivity; [lia|]. rewrite IH by lia. reflexivity.
Qed.
Lemma substring_skip a b n : substring (String.length a) n (a ++ b) = substring 0 n b.
Proof. induction a as [|x a IH]; cbn; [reflexivity|exact IH]. Qed.
Lemma last_n_app k a b : String.length b = k -> last_n k (a ++ b)%string = b.
Proof.
  intros <-. unfold last_n. rewrite sapp_length. replace (_ + _ - _) with (String.length a) by lia.
  rewrite substring_skip. apply substring_all.
Qed.
Lemma substring_0_sub n s : exists b, s = (substring 0 n s ++ b)%string.
Proof.
  revert n. induction s as [|a s IH]; intros n; [exists ""; destruct n; reflexivity|].
  destruct n; [exists (String a s); reflexivity|]. destruct (IH n) as (b & E). exists b. cbn. rewrite <- E. reflexivity.
Qed.
Lemma last_n_split k s : k <= String.length s -> exists a, s = (a ++ last_n k s)%string.
Proof.
  unfold last_n. intro H. remember (String.length s - k) as m. assert (M : m + k = String.length s) by lia. clear Heqm H.
  revert m M. induction s as [|x s IH]; intros m M.
  - exists "". destruct m; [|cbn in M; lia]. destruct k; [reflexivity|cbn in M; lia].
  - destruct m as [|m].
    + exists "". cbn [append]. rewrite substring_long; [reflexivity|lia].
    + cbn in M. destruct (IH m ltac:(lia)) as (a & E). exists (String x a). cbn. rewrite <- E. reflexivity.
Qed.
Lemma last_n_short k s : String.length s < k -> last_n k s = s.
Proof. intro H. unfold last_n. replace (_ - _) with 0 by lia. apply substring_long. lia. Qed.
Lemma last_n_ends k s suf : String.length suf = k -> String.eqb (last_n k s) suf = ends_with suf s.
Proof.
  intro L. destruct (ends_with suf s) eqn:E.
  - apply ends_with_iff in E as (a & ->). rewrite last_n_app by exact L. apply String.eqb_refl.
  - apply String.eqb_neq. intro C. destruct (le_lt_dec k (String.length s)) as [H|H].
    + destruct (last_n_split k s H) as (a & S). rewrite C in S. apply (proj1 (ends_with_false _ _) E) in S. exact S.
    + rewrite last_n_short in C by exact H. subst. lia.
Qed.
Lemma ends_app suf a b : ends_with suf b = true -> ends_with suf (a ++ b) = true.
Proof. rewrite !ends_with_iff. intros (c & ->). exists (a ++ c)%string. rewrite sapp_assoc. reflexivity. Qed.
Lemma sapp_tail_eq a b x y : (a ++ x)%string = (b ++ y)%string -> String.length x = String.length y -> x = y /\ a = b.
Proof.
  intros E L. assert (A : String.length a = String.length b).
  { apply (f_equal String.length) in E. rewrite !sapp_length in E. lia. }
  revert b E A. induction a as [|c a IH]; intros [|d b] E A; cbn in *; try lia; [auto|].
  injection E as -> E. destruct (IH b E ltac:(lia)) as [-> ->]. auto.
Qed.
Lemma ends_suffix suf x y : ends_with (x ++ suf) (y ++ suf) = ends_with x y.
Proof.
  destruct (ends_with x y) eqn:E.
  - apply ends_with_iff in E as (a & ->). apply ends_with_iff. exists a. rewrite sapp_assoc. reflexivity.
  - apply ends_with_false. intros a C. rewrite <- sapp_assoc in C. apply sapp_tail_eq in C as [_ C]; [|reflexivity].
    apply (proj1 (ends_with_false _ _) E) in C. exact C.
Qed.

Definition good_ext (e : string) : Prop := In e ["ly"; "rs"; "sc"; "sh"].
Lemma ext_len e : good_ext e -> String.length e = 2.
Proof. intros [<-|[<-|[<-|[<-|[]]]]]; reflexivity. Qed.
Lemma ext_not_hdf5 e a : good_ext e -> ends_with ".hdf5" (a ++ e) = false.
Proof.
  intro G. apply ends_with_false. intros b C. change ".hdf5" with (".hd" ++ "f5")%string in C. rewrite <- sapp_assoc in C.
  apply sapp_tail_eq in C as [C _]; [|rewrite (ext_len _ G); reflexivity].
  destruct G as [<-|[<-|[<-|[<-|[]]]]]; discriminate.
Qed.
Lemma hdf5_not_ext e a : good_ext e -> ends_with e (a ++ ".hdf5") = false.
Proof.
  intro G. apply ends_with_false. intros b C. change ".hdf5" with (".hd" ++ "f5")%string in C. rewrite <- sapp_assoc in C.
  apply sapp_tail_eq in C as [C _]; [|rewrite (ext_len _ G); reflexivity].
  destruct G as [<-|[<-|[<-|[<-|[]]]]]; discriminate.
Qed.
Lemma ext_no_underscore e : good_ext e -> occurs "_" e = false.
Proof. intros [<-|[<-|[<-|[<-|[]]]]]; reflexivity. Qed.

Section N.
Variables ext vs : string.
Hypothesis G : good_ext ext.
Let repl (x : string) := if ends_with ext x then (vs ++ ext)%string else x.
Lemma repl_not_hdf5 x : ends_with ".hdf5" x = false -> ends_with ".hdf5" (repl x) = false.
Proof. intro H. unfold repl. destruct (ends_with ext x); [apply ext_not_hdf5, G|exact H]. Qed.
Lemma conv_token_plain x : ends_with ".hdf5" x = false -> conv_token ext vs x = (repl x, ends_with ext x).
Proof.
  intro H. unfold conv_token, repl. rewrite last_n_ends by apply (ext_len _ G). destruct (ends_with ext x) eqn:E; [reflexivity|].
  rewrite last_n_ends by (rewrite sapp_length, (ext_len _ G); reflexivity).
  assert (F : ends_with (ext ++ ".hdf5") x = false).
  { apply ends_with_false. intros a ->. rewrite <- sapp_assoc in H. rewrite (proj2 (ends_with_iff _ _)) in H; [discriminate|].
    eexists. reflexivity. }
  rewrite F. reflexivity.
Qed.
Lemma conv_token_last x : conv_token ext vs (x ++ ".hdf5") = ((repl x ++ ".hdf5")%string, ends_with ext x).
Proof.
  unfold conv_token, repl. rewrite last_n_ends by apply (ext_len _ G). rewrite hdf5_not_ext by exact G.
  rewrite last_n_ends by (rewrite sapp_length, (ext_len _ G); reflexivity).
  rewrite ends_suffix. destruct (ends_with ext x); [rewrite sapp_assoc|]; reflexivity.
Qed.
Lemma conv_tail_plain x : ends_with ".hdf5" x = false -> conv_tail x = (x ++ "_")%string.
Proof. intro H. unfold conv_tail. rewrite last_n_ends by reflexivity. rewrite H. reflexivity. Qed.
Lemma conv_tail_last x : conv_tail (x ++ ".hdf5") = (x ++ ".hdf5")%string.
Proof. unfold conv_tail. rewrite last_n_app by reflexivity. reflexivity. Qed.
Lemma conv_tokens_eq init base : Forall (fun x => ends_with ".hdf5" x = false) init ->
  conv_tokens ext vs (init ++ [(base ++ ".hdf5")%string]) =
  (file_name (map repl init) (repl base), existsb (ends_with ext) (init ++ [base])).
Proof.
  induction 1 as [|x init H F IH]; cbn [app conv_tokens map existsb].
  - rewrite conv_token_last, conv_tail_last, sapp_nil. reflexivity.
  - rewrite (conv_token_plain x H), IH. rewrite conv_tail_plain by (apply repl_not_hdf5, H).
    unfold file_name. cbn [app]. rewrite join_cons by (destruct (map repl init); discriminate). rewrite sapp_assoc. reflexivity.
Qed.
End N.
Lemma split_join l : l <> [] -> Forall (fun x => occurs "_" x = false) l -> split_char "_" (join "_" l) = l.
Proof.
  intros N F. induction F as [|x l H F IH]; [contradiction|]. rewrite occurs_has in H.
  destruct l as [|y l].
  - apply split_none, H.
  - rewrite join_cons by discriminate. change ("_" ++ join "_" (y :: l))%string with (String "_" (join "_" (y :: l))).
    rewrite split_app, split_none, IH by (discriminate || exact H). reflexivity.
Qed.
Lemma well_split init base : well_named init base ->
  split_char "_" (file_name init base) = init ++ [(base ++ ".hdf5")%string] /\
  Forall (fun x => ends_with ".hdf5" x = false) init.
Proof.
  intro W. unfold well_named in W. apply Forall_app in W as [W1 W2]. inversion W2 as [|? ? [B1 B2] _ E]. subst. split.
  - apply split_join; [destruct init; discriminate|]. apply Forall_app. split.
    + eapply Forall_impl; [|exact W1]. intros a [A _]. exact A.
    + constructor; [|constructor]. rewrite occurs_app, B1. reflexivity.
  - eapply Forall_impl; [|exact W1]. intros a [_ A]. exact A.
Qed.
Lemma file_name_drop init base : exists s, file_name init base = (s ++ ".hdf5")%string /\ join "_" (init ++ [base]) = s.
Proof.
  unfold file_name. induction init as [|x init IH]; cbn [app].
  - exists base. auto.
  - rewrite !join_cons by (destruct init; discriminate). destruct IH as (s & -> & ->). eexists. split; [|reflexivity].
    rewrite !sapp_assoc. reflexivity.
Qed.
Lemma join_snoc l x : l <> [] -> join "_" (l ++ [x]) = (join "_" l ++ "_" ++ x)%string.
Proof.
  intro N. induction l as [|y l IH]; [contradiction|]. destruct l as [|z l].
  - reflexivity.
  - change ((y :: z :: l) ++ [x]) with (y :: ((z :: l) ++ [x])). rewrite join_cons by (destruct l; discriminate).
    rewrite IH by discriminate. rewrite (join_cons _ y) by discriminate. rewrite !sapp_assoc. reflexivity.
Qed.
Lemma map_repl_id (f : string -> bool) (g : string -> string) l : existsb f l = false -> map (fun x => if f x then g x else x) l = l.
Proof.
  induction l as [|x l IH]; cbn; [reflexivity|]. intro H. apply orb_false_iff in H as [-> H]. rewrite IH by exact H. reflexivity.
Qed.
Lemma conv_name_l ext vs init base : good_ext ext -> well_named init base ->
  conv_name ext vs (file_name init base) =
  file_name (fst (renamed ext vs init base)) (snd (renamed ext vs init base)).
Proof.
  intros G W. destruct (well_split _ _ W) as [S F]. unfold conv_name, renamed. rewrite S, (conv_tokens_eq _ _ G _ _ F).
  destruct (existsb (ends_with ext) (init ++ [base])) eqn:E; [reflexivity|].
  rewrite existsb_app in E. apply orb_false_iff in E as [E1 E2]. cbn in E2. rewrite orb_false_r in E2.
  rewrite (map_repl_id (ends_with ext) (fun _ => (vs ++ ext)%string)) by exact E1. rewrite E2. cbn [fst snd].
  destruct (file_name_drop init base) as (s & -> & J). rewrite drop_last_app by reflexivity.
  unfold file_name. rewrite join_snoc by (destruct init; discriminate). rewrite J, sapp_assoc. reflexivity.
Qed.
Lemma renamed_well ext vs init base : good_ext ext -> occurs "_" vs = false -> well_named init base ->
  well_named (fst (renamed ext vs init base)) (snd (renamed ext vs init base)).
Proof.
  intros G V W. assert (T : token (vs ++ ext)).
  { split; [rewrite occurs_app, V; apply ext_no_underscore, G|apply ext_not_hdf5, G]. }
  unfold renamed, well_named in *. destruct (existsb _ _); cbn [fst snd].
  - apply Forall_app in W as [W1 W2]. apply Forall_app. split.
    + apply Forall_map. eapply Forall_impl; [|exact W1]. intros x X. destruct (ends_with ext x); assumption.
    + inversion W2; subst. constructor; [|constructor]. destruct (ends_with ext base); assumption.
  - apply Forall_app. split; [exact W|]. constructor; [exact T|constructor].
Qed.
Lemma ends_self suf a : ends_with suf (a ++ suf) = true.
Proof. apply ends_with_iff. exists a. reflexivity. Qed.
Lemma renamed_twice ext vs init base :
  renamed ext vs (fst (renamed ext vs init base)) (snd (renamed ext vs init base)) = renamed ext vs init base.
Proof.
  assert (R : forall x, (if ends_with ext (if ends_with ext x then (vs ++ ext)%string else x) then (vs ++ ext)%string else (if ends_with ext x then (vs ++ ext)%string else x))
    = if ends_with ext x then (vs ++ ext)%string else x).
  { intro x. destruct (ends_with ext x) eqn:E; [rewrite ends_self|rewrite E]; reflexivity. }
  unfold renamed at 2 3 4. destruct (existsb (ends_with ext) (init ++ [base])) eqn:E; cbn [fst snd]; unfold renamed.
  - rewrite existsb_app in *. cbn [existsb] in *.
    assert (H : existsb (ends_with ext) (map (fun x => if ends_with ext x then (vs ++ ext)%string else x) init) ||
       (ends_with ext (if ends_with ext base then (vs ++ ext)%string else base) || false) = true).
    { rewrite orb_false_r in *. apply orb_true_iff in E as [E|E]; apply orb_true_iff.
      - left. apply existsb_exists in E as (x & I & X). apply existsb_exists. exists (vs ++ ext)%string. split; [|apply ends_self].
        apply in_map_iff. exists x. rewrite X. auto.
      - right. rewrite E. apply ends_self. }
    rewrite H, map_map. rewrite R. f_equal. apply map_ext. exact R.
  - assert (H : existsb (ends_with ext) ((init ++ [base]) ++ [(vs ++ ext)%string]) = true).
    { rewrite existsb_app. cbn. rewrite ends_self. rewrite orb_true_r. reflexivity. }
    rewrite H. rewrite (map_repl_id (ends_with ext) (fun _ => (vs ++ ext)%string)) by exact E. rewrite ends_self. reflexivity.
Qed.
Lemma file_name_inj i b i' b' : well_named i b -> well_named i' b' -> file_name i b = file_name i' b' -> i = i' /\ b = b'.
Proof.
  intros W W' E. apply (f_equal (split_char "_")) in E. rewrite (proj1 (well_split _ _ W)), (proj1 (well_split _ _ W')) in E.
  apply app_inj_tail in E as [-> E]. apply sapp_inj_r in E. auto.
Qed.
Lemma conv_name_inj_l ext v1 v2 init base : good_ext ext -> well_named init base ->
  occurs "_" v1 = false -> occurs "_" v2 = false ->
  conv_name ext v1 (file_name init base) = conv_name ext v2 (file_name init base) -> v1 = v2.
Proof.
  intros G W V1 V2 E. rewrite !conv_name_l in E by assumption.
  apply file_name_inj in E as [A B]; try (apply renamed_well; assumption).
  unfold renamed in A, B. destruct (existsb (ends_with ext) (init ++ [base])) eqn:X; cbn [fst snd] in *.
  - rewrite existsb_app in X. apply orb_true_iff in X as [X|X].
    + apply existsb_exists in X as (x & I & T). apply in_split in I as (l1 & l2 & ->). rewrite !map_app in A. cbn [map] in A.
      rewrite T in A. assert (L : length (map (fun x => if ends_with ext x then (v1 ++ ext)%string else x) l1) = length (map (fun x => if ends_with ext x then (v2 ++ ext)%string else x) l1)) by (rewrite !map_length; reflexivity).
      pose proof (f_equal (fun l => nth (length l1) l "") A) as N. cbn beta in N.
      rewrite !app_nth2 in N by (rewrite map_length; lia). rewrite !map_length, Nat.sub_diag in N. cbn [nth] in N.
      apply sapp_inj_r in N. exact N.
    + cbn in X. rewrite orb_false_r in X. rewrite X in B. apply sapp_inj_r in B. exact B.
  - apply sapp_inj_r in B. exact B.
Qed.

(** value strings *)
Lemma rstrip_snoc c s : rstrip c (s ++ String c "") = rstrip c s.
Proof.
  induction s as [|a s IH]; cbn; [rewrite Ascii.eqb_refl; reflexivity|]. rewrite IH. reflexivity.
Qed.
Lemma rstrip_keep c s : ends_with (String c "") s = false -> rstrip c s = s.
Proof.
  induction s as [|a s IH]; intro H; [reflexivity|]. cbn [rstrip]. cbn [ends_with] in H. apply orb_false_iff in H as [H1 H2].
  rewrite IH by exact H2. destruct s as [|b s]; [|reflexivity].
  cbn in H1. destruct (Ascii.eqb_spec a c) as [->|]; [|reflexivity]. rewrite Ascii.eqb_refl in H1. discriminate.
Qed.
Lemma ends_char_occurs c s : ends_with (String c "") s = true -> occurs c s = true.
Proof. intro H. apply ends_with_iff in H as (a & ->). rewrite occurs_app. cbn. rewrite Ascii.eqb_refl. apply orb_true_r. Qed.
Lemma ends_char_app c a b : b <> "" -> ends_with (String c "") (a ++ b) = ends_with (String c "") b.
Proof.
  intro N. destruct (ends_with _ b) eqn:E; [apply ends_app, E|]. apply ends_with_false. intros x C.
  destruct (last_n_split 1 b) as (y & Y). { destruct b; [contradiction|cbn; lia]. }
  rewrite Y in C. rewrite <- sapp_assoc in C. apply sapp_tail_eq in C as [C _].
  - rewrite C in Y. apply (proj1 (ends_with_false _ _) E) in Y. exact Y.
  - unfold last_n. destruct b as [|b0 b]; [contradiction|]. cbn.
    clear. assert (H : forall n s, n < String.length s -> String.length (substring n 1 s) = 1).
    { intros n s. revert n. induction s as [|q s IH]; intros n H; [cbn in H; lia|]. destruct n; [destruct s; reflexivity|]. apply IH. cbn in H. lia. }
    apply (H _ (String b0 b)). cbn. lia.
Qed.
Lemma value_string_decimal n a b : occurs "." a = false -> occurs "." b = false -> b <> "" -> (b = "0" \/ ends_with "0" b = false) ->
  value_string (PVal n (a ++ "." ++ b)) = if String.eqb b "0" then a else (a ++ "." ++ b)%string.
Proof.
  intros A B N H. unfold value_string. cbn [pv_str]. destruct (String.eqb_spec b "0") as [->|NZ].
  - change ("." ++ "0")%string with (("." ++ "") ++ "0")%string. rewrite <- !sapp_assoc, rstrip_snoc, sapp_nil.
    rewrite (rstrip_keep "0" (a ++ ".")%string).
    + rewrite rstrip_snoc. apply rstrip_keep. destruct (ends_with "." a) eqn:E; [|reflexivity].
      apply ends_char_occurs in E. congruence.
    + rewrite ends_char_app by discriminate. reflexivity.
  - destruct H as [H|H]; [contradiction|]. rewrite (rstrip_keep "0").
    + apply rstrip_keep. rewrite <- sapp_assoc, ends_char_app by exact N.
      destruct (ends_with "." b) eqn:E; [|reflexivity]. apply ends_char_occurs in E. congruence.
    + rewrite <- sapp_assoc, ends_char_app by exact N. exact H.
Qed.
Lemma split_dot a b a' b' : occurs "." a = false -> occurs "." a' = false -> (a ++ "." ++ b)%string = (a' ++ "." ++ b')%string -> a = a' /\ b = b'.
Proof.
  revert a'. induction a as [|x a IH]; intros [|y a'] A A' E; cbn in *.
  - injection E as ->. auto.
  - injection E as <- _. rewrite Ascii.eqb_refl in A'. discriminate.
  - injection E as -> _. rewrite Ascii.eqb_refl in A. discriminate.
  - injection E as -> E. apply orb_false_iff in A as [_ A]. apply orb_false_iff in A' as [_ A'].
    destruct (IH a' A A' E) as [-> ->]. auto.
Qed.
Lemma value_string_inj_l v1 v2 : decimal (pv_str v1) -> decimal (pv_str v2) -> value_string v1 = value_string v2 -> pv_str v1 = pv_str v2.
Proof.
  destruct v1 as [n1 s1], v2 as [n2 s2]. cbn [pv_str].
  intros (a & b & -> & A & B & N & H) (a' & b' & -> & A' & B' & N' & H').
  rewrite !value_string_decimal by assumption.
  destruct (String.eqb_spec b "0") as [->|Z], (String.eqb_spec b' "0") as [->|Z']; intro E.
  - rewrite E. reflexivity.
  - exfalso. subst a. rewrite !occurs_app in A. cbn in A. rewrite orb_true_r in A. discriminate.
  - exfalso. subst a'. rewrite !occurs_app in A'. cbn in A'. rewrite orb_true_r in A'. discriminate.
  - exact E.
Qed.
Lemma occurs_rstrip c d s : occurs d s = false -> occurs d (rstrip c s) = false.
Proof.
  induction s as [|a s IH]; cbn; [reflexivity|]. intro H. apply orb_false_iff in H as [H1 H2]. specialize (IH H2).
  destruct (rstrip c s) as [|b r] eqn:E.
  - destruct (Ascii.eqb a c); [reflexivity|]. cbn. rewrite H1. reflexivity.
  - cbn [occurs]. cbn [occurs] in IH. rewrite H1, IH. reflexivity.
Qed.

(** directories *)
Definition slashed (d : string) : string := if String.eqb (last_n 1 d) "/" then d else (d ++ "/")%string.
Lemma slashed_ends d : exists e, slashed d = (e ++ "/")%string.
Proof.
  unfold slashed. rewrite last_n_ends by reflexivity. destruct (ends_with "/" d) eqn:E; [|exists d; reflexivity].
  apply ends_with_iff in E. exact E.
Qed.
Lemma slashed_idem e : slashed (e ++ "/") = (e ++ "/")%string.
Proof. unfold slashed. rewrite last_n_app by reflexivity. reflexivity. Qed.
Lemma nonempty_app e x : exists c r, (e ++ String x "")%string = String c r.
Proof. destruct e; cbn; eauto. Qed.
Lemma conv_dir_slash s dim added e : conv_dir s dim added (e ++ "/") =
  if added then Ok ((e ++ "/") ++ s ++ "/")%string
  else do idx <- str_index dim (rev (split_char "/" (e ++ "/")));
       if str_in s (last_items idx (split_char "/" (e ++ "/"))) then Ok (e ++ "/")%string else Ok ((e ++ "/") ++ s ++ "/")%string.
Proof.
  unfold conv_dir. destruct (nonempty_app e "/"%char) as (c & r & E). rewrite E. rewrite <- E.
  rewrite last_n_app by reflexivity. reflexivity.
Qed.
Lemma conv_dir_slashed s dim added d : d <> "" -> conv_dir s dim added d = conv_dir s dim added (slashed d).
Proof.
  intro N. destruct (slashed_ends d) as (e & E). rewrite E, conv_dir_slash. unfold conv_dir. destruct d as [|c d]; [contradiction|].
  fold (slashed (String c d)). rewrite E. reflexivity.
Qed.
Lemma str_index_ok x l : In x l -> exists k, str_index x l = Ok k /\ k < length l.
Proof.
  induction l as [|y l IH]; intro H; [contradiction|]. cbn. destruct (String.eqb_spec x y); [exists 0; split; [reflexivity|lia]|].
  destruct H as [H|H]; [congruence|]. destruct (IH H) as (k & -> & K). exists (S k). cbn. split; [reflexivity|lia].
Qed.
Lemma split_slash e s : occurs "/" s = false -> split_char "/" ((e ++ "/") ++ s ++ "/") = split_char "/" e ++ [s; ""].
Proof.
  intro S. rewrite sapp_assoc. change ("/" ++ (s ++ "/"))%string with (String "/" (s ++ "/")). rewrite split_app.
  change (s ++ "/")%string with (s ++ String "/" "")%string. rewrite split_app, (split_none "/" s) by (rewrite <- occurs_has; exact S).
  reflexivity.
Qed.
Lemma index_app_ne dim s l k : dim <> "" -> dim <> s -> str_index dim l = Ok k -> str_index dim ("" :: s :: l) = Ok (S (S k)).
Proof.
  intros A B E. cbn. destruct (String.eqb_spec dim ""); [contradiction|]. destruct (String.eqb_spec dim s); [contradiction|].
  rewrite E. reflexivity.
Qed.
Lemma conv_dir_again s dim e : occurs "/" s = false -> dim <> "" -> dim <> s -> In dim (split_char "/" e) ->
  conv_dir s dim false ((e ++ "/") ++ s ++ "/") = Ok ((e ++ "/") ++ s ++ "/")%string.
Proof.
  intros S A B I. rewrite <- (sapp_assoc (e ++ "/") s "/"), conv_dir_slash. rewrite (sapp_assoc (e ++ "/") s "/"), split_slash by exact S.
  rewrite rev_app_distr. cbn [rev app]. destruct (str_index_ok dim (rev (split_char "/" e))) as (k & K & L); [apply -> in_rev; exact I|].
  rewrite (index_app_ne _ _ _ _ A B K). cbn [rbind]. rewrite rev_length in L.
  assert (H : str_in s (last_items (Datatypes.S (Datatypes.S k)) (split_char "/" e ++ [s; ""])) = true).
  { apply str_in_iff. unfold last_items. rewrite app_length. cbn [length].
    rewrite skipn_app. apply in_or_app. right. replace (_ - _ - _) with 0 by lia. left. reflexivity. }
  rewrite H. reflexivity.
Qed.
Lemma conv_dir_idem_l s dim added d d' :
  occurs "/" s = false -> dim <> "" -> dim <> s -> In dim (split_char "/" d) ->
  conv_dir s dim added d = Ok d' -> conv_dir s dim false d' = Ok d'.
Proof.
  intros S A B I E. destruct d as [|c d0] eqn:D; [discriminate|]. rewrite <- D in *. clear c d0 D.
  assert (N : d <> "") by (intro H; subst d; discriminate).
  rewrite conv_dir_slashed in E by exact N.
  assert (J : exists e, slashed d = (e ++ "/")%string /\ In dim (split_char "/" e)).
  { unfold slashed. rewrite last_n_ends by reflexivity. destruct (ends_with "/" d) eqn:X.
    - apply ends_with_iff in X as (e & ->). exists e. split; [reflexivity|].
      change (e ++ "/")%string with (e ++ String "/" "")%string in I. rewrite split_app in I. apply in_app_iff in I as [I|I]; [exact I|].
      cbn in I. destruct I as [I|[]]. congruence.
    - exists d. auto. }
  destruct J as (e & J & I'). rewrite J in E. rewrite conv_dir_slash in E. destruct added.
  - injection E as <-. apply conv_dir_again; assumption.
  - destruct (str_index dim _) as [k|] eqn:K; [|discriminate]. cbn [rbind] in E.
    destruct (str_in s _) eqn:T; injection E as <-.
    + rewrite conv_dir_slash, K. cbn [rbind]. rewrite T. reflexivity.
    + apply conv_dir_again; assumption.
Qed.
Lemma dir_kind_ok k : occurs "/" (syst_dir k) = false. Proof. destruct k; reflexivity. Qed.
Lemma ext_kind_ok k v : good_ext (syst_ext k v).
Proof. unfold good_ext. destruct k; cbn; [destruct (qlt _ _)|..]; auto 6. Qed.
Lemma value_no_underscore v : occurs "_" (pv_str v) = false -> occurs "_" (value_string v) = false.
Proof. intro H. unfold value_string. apply occurs_rstrip, occurs_rstrip, H. Qed.

Lemma pre_name_l k dim added v d init base r : well_named init base ->
  get_pre_convolved k dim added (Some v) d (file_name init base) = Ok r ->
  snd r = file_name (fst (renamed (syst_ext k v) (value_string v) init base)) (snd (renamed (syst_ext k v) (value_string v) init base)).
Proof.
  intros W. unfold get_pre_convolved, pre_convolved. destruct (conv_dir _ _ _ _); [|discriminate]. cbn [rbind]. intro E. injection E as <-.
  cbn [snd]. apply conv_name_l; [apply ext_kind_ok|exact W].
Qed.
Lemma pre_idem_l k dim added v d init base d' f' : well_named init base -> occurs "_" (pv_str v) = false ->
  dim <> "" -> dim <> syst_dir k -> In dim (split_char "/" d) ->
  get_pre_convolved k dim added (Some v) d (file_name init base) = Ok (d', f') ->
  get_pre_convolved k dim false (Some v) d' f' = Ok (d', f').
Proof.
  intros W U A B I. unfold get_pre_convolved, pre_convolved. destruct (conv_dir _ _ added d) as [x|] eqn:E; [|discriminate].
  cbn [rbind]. intro H. injection H as -> <-. rewrite (conv_dir_idem_l _ _ _ _ _ (dir_kind_ok k) A B I E). cbn [rbind].
  do 2 f_equal. pose proof (ext_kind_ok k v) as G. rewrite (conv_name_l _ _ _ _ G W).
  rewrite conv_name_l by (exact G || (apply renamed_well; [exact G|apply value_no_underscore, U|exact W])).
  rewrite renamed_twice. reflexivity.
Qed.
Lemma pre_inj_l k dim added v1 v2 d init base r1 r2 : well_named init base ->
  decimal (pv_str v1) -> decimal (pv_str v2) -> occurs "_" (pv_str v1) = false -> occurs "_" (pv_str v2) = false ->
  syst_ext k v1 = syst_ext k v2 ->
  get_pre_convolved k dim added (Some v1) d (file_name init base) = Ok r1 ->
  get_pre_convolved k dim added (Some v2) d (file_name init base) = Ok r2 ->
  snd r1 = snd r2 -> pv_str v1 = pv_str v2.
Proof.
  intros W D1 D2 U1 U2 X. unfold get_pre_convolved, pre_convolved. destruct (conv_dir _ _ added d) as [x|]; [|discriminate].
  cbn [rbind]. intros E1 E2. injection E1 as <-. injection E2 as <-. cbn [snd]. rewrite <- X. intro E.
  apply conv_name_inj_l in E; [|apply ext_kind_ok|exact W|apply value_no_underscore, U1|apply value_no_underscore, U2].
  apply value_string_inj_l; assumption.
Qed.
Lemma pre_unset_l k dim added d f : get_pre_convolved k dim added None d f = Err EValueError.
Proof. reflexivity. Qed.

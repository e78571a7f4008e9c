(** Strings: split, join, substrings. *)
From Coq Require Import Lia.
From Verif Require Import Model.Base Model.PyStr.
Local Open Scope string_scope.
Local Open Scope list_scope.

Fixpoint has_char (c : ascii) (s : string) : bool :=
  match s with EmptyString => false | String a s' => Ascii.eqb a c || has_char c s' end.

Lemma sapp_assoc (a b c : string) : ((a ++ b) ++ c)%string = (a ++ (b ++ c))%string.
Proof. induction a as [|x a IH]; cbn; [reflexivity|]. rewrite IH. reflexivity. Qed.
Lemma sapp_nil (a : string) : (a ++ "")%string = a.
Proof. induction a as [|x a IH]; cbn; [reflexivity|]. rewrite IH. reflexivity. Qed.
Lemma sapp_length (a b : string) : String.length (a ++ b) = String.length a + String.length b.
Proof. induction a as [|x a IH]; cbn; [reflexivity|]. rewrite IH. reflexivity. Qed.
Lemma sapp_inj_l (a b c : string) : (a ++ b)%string = (a ++ c)%string -> b = c.
Proof. induction a as [|x a IH]; cbn; intro H; [exact H|]. injection H as H. auto. Qed.
Lemma sapp_inj_len (a b c d : string) :
  String.length a = String.length c -> (a ++ b)%string = (c ++ d)%string -> a = c /\ b = d.
Proof.
  revert c. induction a as [|x a IH]; intros [|y c] L H; cbn in *; try lia; [auto|].
  injection H as -> H. destruct (IH c) as [-> ->]; auto.
Qed.
Lemma sapp_inj_r (a b c : string) : (a ++ c)%string = (b ++ c)%string -> a = b.
Proof.
  intro H. assert (L : String.length (a ++ c) = String.length (b ++ c)) by (rewrite H; reflexivity).
  rewrite !sapp_length in L. apply (sapp_inj_len a c b c); [lia|exact H].
Qed.

Lemma split_nonempty c s : split_char c s <> [].
Proof.
  destruct s as [|a s]; cbn; [discriminate|]. destruct (Ascii.eqb a c); [discriminate|].
  destruct (split_char c s); discriminate.
Qed.
Lemma split_app c (a b : string) : split_char c (a ++ String c b)%string = split_char c a ++ split_char c b.
Proof.
  induction a as [|x a IH]; cbn.
  - rewrite Ascii.eqb_refl. reflexivity.
  - destruct (Ascii.eqb x c); rewrite IH; [reflexivity|].
    destruct (split_char c a) as [|w ws] eqn:E; [exfalso; apply (split_nonempty c a E)|reflexivity].
Qed.
Lemma split_none c s : has_char c s = false -> split_char c s = [s].
Proof.
  induction s as [|a s IH]; cbn; intro H; [reflexivity|].
  apply orb_false_iff in H as [H1 H2]. rewrite H1, IH by exact H2. reflexivity.
Qed.
Lemma last_app {A} (l m : list A) d : m <> [] -> last (l ++ m) d = last m d.
Proof.
  intro H. induction l as [|a l IH]; [reflexivity|]. cbn [app]. rewrite <- IH.
  destruct (l ++ m) eqn:E; [apply app_eq_nil in E as [_ E]; contradiction|reflexivity].
Qed.
Lemma split_last c (a b : string) : has_char c b = false -> last (split_char c (a ++ String c b)%string) "" = b.
Proof.
  intro H. rewrite split_app, last_app by apply split_nonempty. rewrite (split_none c b) by exact H. reflexivity.
Qed.
Lemma split_removelast c (a b : string) :
  has_char c b = false -> removelast (split_char c (a ++ String c b)%string) = split_char c a.
Proof.
  intro H. rewrite split_app, (split_none c b) by exact H. apply removelast_last.
Qed.
Lemma substring_0 n (a b : string) : n = String.length a -> substring 0 n (a ++ b) = a.
Proof.
  intros ->. induction a as [|x a IH]; cbn; [destruct b; reflexivity|]. rewrite IH. reflexivity.
Qed.
Lemma drop_last_app k (a b : string) : String.length b = k -> drop_last k (a ++ b) = a.
Proof. intro H. unfold drop_last. apply substring_0. rewrite sapp_length. lia. Qed.
(** Every string with the separator is what precedes the last one, the separator, and the
    last component. *)
Lemma split_decompose c s :
  has_char c s = true -> exists a, s = (a ++ String c (last (split_char c s) ""))%string /\
    has_char c (last (split_char c s) "") = false.
Proof.
  induction s as [|x s IH]; cbn [has_char]; [discriminate|]. intro H.
  destruct (has_char c s) eqn:Hs.
  - destruct (IH eq_refl) as (a & E & N). exists (String x a). cbn [split_char].
    destruct (split_char c s) as [|w ws] eqn:Sp; [exfalso; apply (split_nonempty c s Sp)|].
    destruct (Ascii.eqb x c).
    + cbn [app append] in *. change (last ("" :: w :: ws) "") with (last (w :: ws) ""). split; [rewrite E at 1; reflexivity|exact N].
    + destruct ws as [|w2 ws].
      * exfalso. cbn in E, N. rewrite E in Sp. rewrite split_app in Sp.
        apply (f_equal (@length _)) in Sp. rewrite app_length in Sp. cbn in Sp.
        pose proof (split_nonempty c a). pose proof (split_nonempty c w).
        destruct (split_char c a), (split_char c w); cbn in Sp; try contradiction; lia.
      * change (last (String x w :: w2 :: ws) "") with (last (w :: w2 :: ws) "").
        split; [|exact N]. cbn. f_equal. exact E.
  - rewrite orb_false_r in H. apply Ascii.eqb_eq in H as ->. cbn [split_char].
    rewrite Ascii.eqb_refl, split_none by exact Hs. cbn. exists "". split; [reflexivity|exact Hs].
Qed.

Lemma join_cons sep x l : l <> [] -> join sep (x :: l) = (x ++ sep ++ join sep l)%string.
Proof. destruct l; [contradiction|reflexivity]. Qed.
Lemma join_split c s : join (String c "") (split_char c s) = s.
Proof.
  induction s as [|a s IH]; [reflexivity|]. cbn [split_char]. destruct (Ascii.eqb_spec a c) as [->|N].
  - rewrite join_cons by apply split_nonempty. rewrite IH. reflexivity.
  - destruct (split_char c s) as [|w ws] eqn:E; [exfalso; apply (split_nonempty c s E)|].
    destruct ws as [|w2 ws].
    + cbn in *. rewrite IH. reflexivity.
    + rewrite join_cons in * by discriminate. rewrite <- IH. reflexivity.
Qed.
Lemma split_all_nochar c s : Forall (fun w => has_char c w = false) (split_char c s).
Proof.
  induction s as [|a s IH]; cbn [split_char]; [repeat constructor|].
  destruct (Ascii.eqb a c) eqn:E; [constructor; [reflexivity|exact IH]|].
  destruct (split_char c s) as [|w ws]; [repeat constructor; cbn; rewrite E; reflexivity|].
  inversion IH; subst. constructor; [cbn; rewrite E; assumption|assumption].
Qed.
Lemma last_in {A} (l : list A) d : l <> [] -> In (last l d) l.
Proof.
  induction l as [|a l IH]; intro H; [contradiction|]. destruct l as [|b l]; [left; reflexivity|].
  right. apply IH. discriminate.
Qed.
Lemma last_nochar c s : has_char c (last (split_char c s) "") = false.
Proof.
  pose proof (split_all_nochar c s) as H. rewrite Forall_forall in H. apply H, last_in, split_nonempty.
Qed.

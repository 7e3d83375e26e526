(* Logging (C108). NODEMO *)
From Coq Require Import Lia Arith.
From Verif Require Export SpecLog.

Lemma spaced_concat l : spaced l = String.concat " " l.
Proof. induction l as [|a [|b r] IH]; cbn in *; [reflexivity..|]. rewrite IH. reflexivity. Qed.

Lemma substring_all s : substring 0 (String.length s) s = s.
Proof. induction s; cbn; congruence. Qed.

Lemma trim_both s : trim_suffix "]" (trim_prefix "[" ("[" ++ s ++ "]")) = s.
Proof.
  assert (P : trim_prefix "[" ("[" ++ s ++ "]") = s ++ "]").
  { unfold trim_prefix. cbn. rewrite Nat.sub_0_r. destruct (s ++ "]") eqn:E; cbn; [reflexivity|]. rewrite substring_all. reflexivity. }
  rewrite P. clear P. unfold trim_suffix.
  assert (L : forall a b, String.length (a ++ b) = (String.length a + String.length b)%nat) by (induction a; cbn; intros; [reflexivity|rewrite IHa; reflexivity]).
  rewrite L. cbn [String.length]. replace (1 <=? String.length s + 1)%nat with true by (symmetry; apply Nat.leb_le; lia). replace (String.length s + 1 - 1)%nat with (String.length s) by lia.
  assert (A : forall a b n, substring (String.length a) n (a ++ b) = substring 0 n b) by (induction a; cbn; auto).
  assert (B : forall a b, substring 0 (String.length a) (a ++ b) = a) by (induction a; cbn; intros; [destruct b; reflexivity|rewrite IHa; reflexivity]).
  rewrite A, B. reflexivity.
Qed.

Lemma mode_of cs : lg_mode (configured cs) = last_mode cs.
Proof.
  unfold configured, last_mode. change DEBUG with (lg_mode lg0) at 1. generalize lg0. induction cs as [|[m|f] cs IH]; intros l; cbn; [reflexivity|rewrite IH; reflexivity..].
Qed.

Lemma p_C108_logger_partial : forall deco cs info, exists s, words s info /\ Println deco (configured cs) info = if (last_mode cs =? DEBUG)%Z then [Stdout (deco s)] else [].
Proof. intros deco cs info. exists (spaced info). split; [apply spaced_concat|]. unfold Println, sprint_slice. rewrite trim_both, mode_of. reflexivity. Qed.

Lemma p_C108_release_refuted : forall deco stamp cs h, last_mode cs = RELEASE -> (prints deco stamp (configured cs) h <> [] <-> bypasses h = true).
Proof.
  intros deco stamp cs h M. destruct h; cbn [prints bypasses]; unfold Println; rewrite ?mode_of, ?M; cbn; split; intros H; try reflexivity; try discriminate; try (destruct H; reflexivity).
Qed.

Lemma p_C108_flags_refuted : forall deco stamp cs f h, prints deco stamp (configured (app cs [CFlags f])) h = prints deco stamp (configured cs) h.
Proof.
  intros deco stamp cs f h. assert (E : forall info, Println deco (configured (app cs [CFlags f])) info = Println deco (configured cs) info).
  { intros info. unfold Println. rewrite !mode_of. unfold last_mode. rewrite fold_left_app. reflexivity. }
  destruct h; cbn [prints]; rewrite ?E; reflexivity.
Qed.

Lemma p_C108_verb_refuted : forall deco stamp cs e, last_mode cs = DEBUG -> prints deco stamp (configured cs) (HBeatPanic e) = [Stdout (deco ("recover from : %v " ++ e))] /\
  prints deco stamp (configured cs) (HHeader e) = [Stdout (deco ("header decode err: %s " ++ e))].
Proof.
  intros deco stamp cs e M. cbn [prints]. unfold Println, sprint_slice. rewrite mode_of, M, !trim_both. split; reflexivity.
Qed.

Lemma p_C108_texts : forall deco stamp cs h, prints deco stamp (configured cs) h =
  app (unlogged stamp h) (if (last_mode cs =? DEBUG)%Z then map (fun t => Stdout (deco t)) (logged h) else []).
Proof.
  intros deco stamp cs h. assert (P : forall info, Println deco (configured cs) info = if (last_mode cs =? DEBUG)%Z then [Stdout (deco (spaced info))] else []).
  { intros info. unfold Println, sprint_slice. rewrite trim_both, mode_of. reflexivity. }
  assert (A : forall a b c, a ++ b ++ c = (a ++ b) ++ c) by (induction a; cbn; intros; [reflexivity|f_equal; auto]).
  assert (Q : forall x ip st, (x ++ ip ++ "' heartbeat:") ++ " " ++ st = x ++ ip ++ "' heartbeat: " ++ st).
  { intros x ip st. rewrite <- !A. reflexivity. }
  destruct h; cbn [prints unlogged logged app map]; rewrite ?P; destruct (last_mode cs =? DEBUG)%Z; try reflexivity.
  cbn [spaced]. rewrite Q. reflexivity.
Qed.

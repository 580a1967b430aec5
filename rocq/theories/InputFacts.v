(** * InputFacts: the model's clipping, direction penalty and mean are those of SpecInput/SpecPlan. *)
From Coq Require Import FunctionalExtensionality.
From Verif Require Import Base BaseFacts Params SpecInput SpecPlan.
From Coq Require Import List.
Import ListNotations.
Open Scope R_scope.

Lemma nearest_clip v : nearest_admissible v = clip v (-1) 1.
Proof. unfold nearest_admissible, clip, Rmin, Rmax. repeat destruct Rlt_dec; repeat destruct Rle_dec; lra. Qed.
Lemma saturated_clip : saturated = clip_act.
Proof. apply functional_extensionality. intros a. unfold saturated, clip_act. rewrite !nearest_clip. reflexivity. Qed.
Lemma charge_penalty : direction_charge = preference_penalty.
Proof.
  apply functional_extensionality. intros p. apply functional_extensionality. intros v.
  unfold direction_charge, preference_penalty, where_, Rltb.
  destruct (Z.eqb _ 1); [destruct (Rlt_dec v 0); reflexivity|].
  destruct (Z.eqb _ (-1)); [destruct (Rlt_dec 0 v); reflexivity|].
  destruct (_ || _)%bool; reflexivity.
Qed.
Lemma charge_zero p v : Z.eqb (p_motion p) 0 = true -> direction_charge p v = 0.
Proof. intros H. apply Z.eqb_eq in H. unfold direction_charge. rewrite H. reflexivity. Qed.
Lemma mean_Rmean : mean = Rmean.
Proof. apply functional_extensionality. intros l. unfold mean, Rmean. f_equal. Qed.
Lemma map2_combine {A B C : Type} (f : A -> B -> C) l k : map (fun x => f (fst x) (snd x)) (combine l k) = map2 f l k.
Proof. revert k. induction l as [|a l IH]; intros [|b k]; cbn; f_equal; auto. Qed.

(** * ProofsFloatSingle: single precision is accurate in the sense of SpecFloat. *)
From Flocq Require Import Core Relative.
From Verif Require Import Base BaseFacts Float SpecFloat FloatSingle ProofsFloatGeom ProofsFloatRun.
From Coq Require Import Psatz.
Open Scope R_scope.

Lemma rnd32_err x : Rabs (rnd32 x - x) <= Rabs x * (6 / 100000000) + / 1000000000000.
Proof.
  destruct (error_N_FLT radix2 (-149) 24 ltac:(lia) (fun x => negb (Z.even x)) x) as (eps & eta & H1 & H2 & _ & H3).
  change (round radix2 (FLT_exp (-149) 24) (Znearest (fun x0 => negb (Z.even x0))) x) with (rnd32 x) in H3.
  rewrite H3. replace (x * (1 + eps) + eta - x) with (x * eps + eta) by ring.
  assert (B1 : Rabs eps <= 6 / 100000000).
  { eapply Rle_trans; [exact H1|]. cbn [bpow Z.add Z.opp]. simpl. lra. }
  assert (B2 : Rabs eta <= / 1000000000000).
  { eapply Rle_trans; [exact H2|]. apply Rle_trans with (/ 2 * bpow radix2 (-40)).
    - apply Rmult_le_compat_l; [lra|]. apply bpow_le; lia.
    - simpl. lra. }
  eapply Rle_trans; [apply Rabs_triang|]. rewrite Rabs_mult.
  apply Rplus_le_compat; auto. apply Rmult_le_compat_l; auto using Rabs_pos.
Qed.

Lemma rnd32_near x : near 1 x (Rabs x) (rnd32 x).
Proof. unfold near. pose proof (rnd32_err x). pose proof (Rabs_pos x). lra. Qed.
Lemma rnd32_trig x y : Rabs x <= 2 -> y = rnd32 x -> Rabs (y - x) <= / 1000000.
Proof. intros H ->. pose proof (rnd32_err x). lra. Qed.
Lemma rnd32_add x y : Rabs (rnd32 (x + y) - (x + y)) <= (Rabs x + Rabs y) * (6 / 100000000) + / 1000000000000.
Proof. pose proof (rnd32_err (x + y)). pose proof (Rabs_triang x y). lra. Qed.

Lemma mac_single x y z : near 3 (x * y + z) (Rabs (x * y) + Rabs z) (rnd32 (rnd32 (x * y) + z)).
Proof.
  unfold near. pose proof (rnd32_err (x * y)) as E1. pose proof (rnd32_add (rnd32 (x * y)) z) as E2.
  pose proof (size_err _ _ _ _ E1 (Rle_refl _)) as S. pose proof (Rabs_pos (x * y)). pose proof (Rabs_pos z).
  replace (rnd32 (rnd32 (x * y) + z) - (x * y + z)) with
    ((rnd32 (rnd32 (x * y) + z) - (rnd32 (x * y) + z)) + (rnd32 (x * y) - x * y)) by ring.
  eapply Rle_trans; [apply Rabs_triang|]. lra.
Qed.
Lemma mac_fused x y z : near 3 (x * y + z) (Rabs (x * y) + Rabs z) (rnd32 (x * y + z)).
Proof. unfold near. pose proof (rnd32_add (x * y) z) as E2. pose proof (Rabs_pos (x * y)). pose proof (Rabs_pos z). lra. Qed.
Lemma dot_single a b : near 3 (a + b) (Rabs a + Rabs b) (rnd32 (rnd32 a + rnd32 b)).
Proof.
  unfold near. pose proof (rnd32_err a) as E1. pose proof (rnd32_err b) as E1'. pose proof (rnd32_add (rnd32 a) (rnd32 b)) as E2.
  pose proof (size_err _ _ _ _ E1 (Rle_refl _)) as S. pose proof (size_err _ _ _ _ E1' (Rle_refl _)) as S'.
  pose proof (Rabs_pos a). pose proof (Rabs_pos b).
  replace (rnd32 (rnd32 a + rnd32 b) - (a + b)) with
    ((rnd32 (rnd32 a + rnd32 b) - (rnd32 a + rnd32 b)) + ((rnd32 a - a) + (rnd32 b - b))) by ring.
  eapply Rle_trans; [apply Rabs_triang|]. pose proof (Rabs_triang (rnd32 a - a) (rnd32 b - b)). lra.
Qed.
Lemma dot_fused a b : near 3 (a + b) (Rabs a + Rabs b) (rnd32 (a + rnd32 b)).
Proof.
  unfold near. pose proof (rnd32_err b) as E1'. pose proof (rnd32_add a (rnd32 b)) as E2.
  pose proof (size_err _ _ _ _ E1' (Rle_refl _)) as S'.
  pose proof (Rabs_pos a). pose proof (Rabs_pos b).
  replace (rnd32 (a + rnd32 b) - (a + b)) with ((rnd32 (a + rnd32 b) - (a + rnd32 b)) + (rnd32 b - b)) by ring.
  eapply Rle_trans; [apply Rabs_triang|]. lra.
Qed.

Lemma accurate_single : accurate single_arith /\ accurate fused_arith.
Proof.
  unfold accurate, single_arith, fused_arith; cbn [a_cvt a_add a_sub a_mul a_div a_mac a_dot2 a_sqrt a_cos a_sin a_tan a_mod].
  assert (C : forall x, Rabs (cos x) <= 2) by (intro x; pose proof (Rabs_cos x); lra).
  assert (S : forall x, Rabs (sin x) <= 2) by (intro x; pose proof (Rabs_sin x); lra).
  assert (Q : forall x, 0 <= x -> near 1 x x (rnd32 x)).
  { intros x H. pose proof (rnd32_near x) as N. rewrite (Rabs_right x) in N by lra. exact N. }
  split; (repeat split); intros; try (apply rnd32_near); try (apply mac_single); try (apply mac_fused); try (apply dot_single); try (apply dot_fused);
    try (apply Q, sqrt_pos); try (apply Q, fmod_range; assumption);
    try (eapply rnd32_trig; [|reflexivity]; auto using tan_bound).
Qed.

Lemma all_accurate_single contract : all_accurate (single contract).
Proof. intro g. unfold single. destruct (contract g); apply accurate_single. Qed.

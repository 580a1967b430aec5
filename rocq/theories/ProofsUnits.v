(** * ProofsUnits: plans do not depend on the units of length and time (C79). *)
From Verif Require Import Base BaseFacts Params Geom TT2d Bicycle NTrailer Acc SpecGeom SpecBodies SpecDyn SpecUnits
  Rollout Planner Instances Demo ProofsGeom ProofsBodies ProofsKin ProofsRobots ProofsSafety ProofsSim ProofsStrict ProofsStats ProofsReach.
Open Scope R_scope.

Section Units.
Variables (l t : R).
Hypothesis Hl : 0 < l.
Hypothesis Ht : 0 < t.

(** ** Numbers *)
Lemma div_units a b : l * a / (l * b) = a / b.
Proof. unfold Rdiv. rewrite Rinv_mult. replace (l * a * (/ l * / b)) with (l * / l * (a * / b)) by ring. rewrite Rinv_r by lra. ring. Qed.
Lemma clip_units x hi : clip (l * x) 0 (l * hi) = l * clip x 0 hi.
Proof.
  unfold clip. replace (Rmax (l * x) 0) with (l * Rmax x 0).
  - unfold Rmin. destruct (Rle_dec (l * Rmax x 0) (l * hi)) as [H|H], (Rle_dec (Rmax x 0) hi) as [K|K]; try reflexivity; exfalso.
    + apply K. apply Rmult_le_reg_l with l; lra.
    + apply H. apply Rmult_le_compat_l; lra.
  - unfold Rmax. destruct (Rle_dec (l * x) 0) as [H|H], (Rle_dec x 0) as [K|K]; try ring; exfalso.
    + apply K. apply Rmult_le_reg_l with l; lra.
    + apply H. replace 0 with (l * 0) by ring. apply Rmult_le_compat_l; lra.
Qed.
Lemma pos_reward_units d thr : pos_reward (l * d) (l * thr) = pos_reward d thr.
Proof. unfold pos_reward. rewrite clip_units, div_units. reflexivity. Qed.
Lemma dist_units P Q : dist (units_point l P) (units_point l Q) = l * dist P Q.
Proof.
  unfold dist, dist2, units_point; cbn [fst snd].
  replace (_ + _) with (l * l * ((fst P - fst Q) * (fst P - fst Q) + (snd P - snd Q) * (snd P - snd Q))) by ring.
  rewrite sqrt_mult_alt by (apply Rmult_le_pos; lra). rewrite sqrt_square by lra. reflexivity.
Qed.
Lemma pnorm_units P Q : pnorm (psub (units_point l P) (units_point l Q)) = l * pnorm (psub P Q).
Proof. change (pnorm (psub ?a ?b)) with (dist a b). apply dist_units. Qed.
Lemma speed_units c v dt : t * dt * (c * (l / t * v)) = l * (dt * (c * v)).
Proof. unfold Rdiv. replace (t * dt * (c * (l * / t * v))) with (t * / t * (l * (dt * (c * v)))) by ring. rewrite Rinv_r by lra. ring. Qed.

(** ** Bodies *)
Definition rg_units (g : region) : region :=
  mkRegion (units_point l (rg_org g)) (rg_ang g) (l * rg_back g) (l * rg_front g) (l * rg_half g).
Lemma at_units o th a b : at_frame (units_point l o) th (l * a) (l * b) = units_point l (at_frame o th a b).
Proof. unfold at_frame, units_point; cbn [fst snd]. apply injective_projections; cbn [fst snd]; ring. Qed.
Lemma le_units a b : l * a <= l * b <-> a <= b.
Proof. split; intros H; [apply Rmult_le_reg_l with l; lra|apply Rmult_le_compat_l; lra]. Qed.
Lemma solid_units g P : solid g P -> solid (rg_units g) (units_point l P).
Proof.
  intros (a & b & Ha & Hb & ->). exists (l * a), (l * b). cbn [rg_units rg_org rg_ang rg_back rg_front rg_half].
  rewrite at_units. split; [split; apply le_units; lra|]. split; [|reflexivity].
  replace (- (l * rg_half g)) with (l * - rg_half g) by ring. split; apply le_units; lra.
Qed.
Lemma unscale a : l * (a / l) = a.
Proof. field. lra. Qed.
Lemma solid_units_inv g X : solid (rg_units g) X -> exists P, solid g P /\ X = units_point l P.
Proof.
  intros (a & b & Ha & Hb & ->). cbn [rg_units rg_org rg_ang rg_back rg_front rg_half] in *.
  exists (at_frame (rg_org g) (rg_ang g) (a / l) (b / l)). split.
  - exists (a / l), (b / l). rewrite <- (unscale a) in Ha. rewrite <- (unscale b) in Hb.
    replace (- (l * rg_half g)) with (l * - rg_half g) in Hb by ring. rewrite !le_units in Ha, Hb. auto.
  - rewrite <- at_units, !unscale. reflexivity.
Qed.
Lemma outline_units g P : outline g P -> outline (rg_units g) (units_point l P).
Proof.
  intros (a & b & Ha & Hb & He & ->). exists (l * a), (l * b). cbn [rg_units rg_org rg_ang rg_back rg_front rg_half].
  rewrite at_units. split; [split; apply le_units; lra|]. split.
  { replace (- (l * rg_half g)) with (l * - rg_half g) by ring. split; apply le_units; lra. }
  split; [|reflexivity]. destruct He as [->|[->|[->| ->]]]; [left|right; left|right; right; left|right; right; right]; ring.
Qed.
Lemma outline_units_inv g X : outline (rg_units g) X -> exists P, outline g P /\ X = units_point l P.
Proof.
  intros (a & b & Ha & Hb & He & ->). cbn [rg_units rg_org rg_ang rg_back rg_front rg_half] in *.
  exists (at_frame (rg_org g) (rg_ang g) (a / l) (b / l)). split.
  - exists (a / l), (b / l). rewrite <- (unscale a) in Ha. rewrite <- (unscale b) in Hb.
    replace (- (l * rg_half g)) with (l * - rg_half g) in Hb by ring. rewrite !le_units in Ha, Hb.
    split; [exact Ha|]. split; [exact Hb|]. split; [|reflexivity].
    destruct He as [->|[->|[->| ->]]]; [left|right; left|right; right; left|right; right; right]; field; lra.
  - rewrite <- at_units, !unscale. reflexivity.
Qed.
Lemma units_inj P Q : units_point l P = units_point l Q -> P = Q.
Proof.
  destruct P as [a b], Q as [c d]. unfold units_point; cbn [fst snd]. intros E. apply pair_equal_spec in E. destruct E as [E1 E2].
  apply Rmult_eq_reg_l in E1; [|lra]. apply Rmult_eq_reg_l in E2; [|lra]. subst. reflexivity.
Qed.
Lemma obstacle_units o : obstacle_body (rect_units l o) = rg_units (obstacle_body o).
Proof. unfold obstacle_body, rg_units, rect_units, units_point; cbn. f_equal; field. Qed.
Lemma clear_units gs circ rect :
  clear_bodies (map rg_units gs) (map (circle_units l) circ) (map (rect_units l) rect) <-> clear_bodies gs circ rect.
Proof.
  split; intros [K1 K2]; split.
  - intros g c Hg Hc P HP. pose proof (K1 (rg_units g) (circle_units l c) (in_map _ _ _ Hg) (in_map _ _ _ Hc) _ (outline_units g P HP)) as K.
    cbn [circle_units c_x c_y c_r] in K. change (l * c_x c, l * c_y c) with (units_point l (c_x c, c_y c)) in K.
    rewrite dist_units in K. apply Rmult_lt_reg_l with l; assumption.
  - intros g o Hg Ho P [HP HO]. apply (K2 (rg_units g) (rect_units l o) (in_map _ _ _ Hg) (in_map _ _ _ Ho) (units_point l P)).
    split; [apply solid_units; exact HP|]. rewrite obstacle_units. apply solid_units; exact HO.
  - intros g' c' Hg Hc X HX. apply in_map_iff in Hg. destruct Hg as (g & <- & Hg). apply in_map_iff in Hc. destruct Hc as (c & <- & Hc).
    apply outline_units_inv in HX. destruct HX as (P & HP & ->). pose proof (K1 g c Hg Hc P HP) as K.
    cbn [circle_units c_x c_y c_r]. change (l * c_x c, l * c_y c) with (units_point l (c_x c, c_y c)). rewrite dist_units.
    apply Rmult_lt_compat_l; assumption.
  - intros g' o' Hg Ho X [HX HO]. apply in_map_iff in Hg. destruct Hg as (g & <- & Hg). apply in_map_iff in Ho. destruct Ho as (o & <- & Ho).
    rewrite obstacle_units in HO. apply solid_units_inv in HX. destruct HX as (P & HP & ->).
    apply solid_units_inv in HO. destruct HO as (P' & HO & E). apply units_inj in E. subst P'. exact (K2 g o Hg Ho P (conj HP HO)).
Qed.
Lemma proper_units circ rect : proper_obstacles circ rect -> proper_obstacles (map (circle_units l) circ) (map (rect_units l) rect).
Proof.
  intros [H1 H2]. split; intros x Hx; apply in_map_iff in Hx; destruct Hx as (y & <- & Hy).
  - cbn [circle_units c_r]. apply Rmult_le_pos; [lra|auto].
  - destruct (H2 y Hy). cbn [rect_units r_w r_h]. split; apply Rmult_lt_0_compat; assumption.
Qed.
Lemma ahead_units P th d : ahead (units_point l P) th (l * d) = units_point l (ahead P th d).
Proof. unfold ahead, units_point; cbn [fst snd]. apply injective_projections; cbn [fst snd]; ring. Qed.
Lemma tractor_units p X Y th : tractor_body (units_params l t p) (l * X) (l * Y) th = rg_units (tractor_body p X Y th).
Proof. unfold tractor_body, rg_units, units_params, units_point; cbn. f_equal; field. Qed.
Lemma trailer_units h th L lf lr w :
  trailer_body (units_point l h) th (l * L) (l * lf) (l * lr) (l * w) = rg_units (trailer_body h th L lf lr w).
Proof.
  unfold trailer_body. replace (- (l * L)) with (l * - L) by ring. rewrite ahead_units.
  unfold rg_units; cbn [rg_org rg_ang rg_back rg_front rg_half]. f_equal; field.
Qed.

(** ** Tractor-trailer *)
Lemma tt_bodies_units p q : tt_bodies (units_params l t p) (tt_units l q) = map rg_units (tt_bodies p q).
Proof.
  unfold tt_bodies. cbn [map]. rewrite <- tractor_units, <- trailer_units, <- ahead_units.
  unfold tt_units, units_params; cbn [t_px t_py t_th1 t_th2 p_lh p_l2 p_lf2 p_lr2 p_trail_w].
  replace (l * - p_lh p) with (- (l * p_lh p)) by ring. reflexivity.
Qed.
Lemma tt_coll_units p circ rect q : tt_sized p -> tt_sized (units_params l t p) -> proper_obstacles circ rect ->
  tt_coll (units_params l t p) (map (circle_units l) circ) (map (rect_units l) rect) (tt_units l q) = tt_coll p circ rect q.
Proof.
  intros S S' O. apply bool_iff. rewrite !tt_coll_iff by (try assumption; apply proper_units; exact O).
  unfold tt_clear. rewrite tt_bodies_units. apply clear_units.
Qed.
Lemma tt_plain_units p q a : tt_plain (units_params l t p) (tt_units l q) a = tt_units l (tt_plain p q a).
Proof.
  unfold tt_plain, tt_units. cbn [t_px t_py t_th1 t_th2 units_params p_dt p_vmax p_l1 p_l2 p_lh p_dmax].
  set (c := fst a). set (v := p_vmax p). set (T := tan (snd a * p_dmax p)).
  assert (A : forall x, t * p_dt p * (c * (l / t * v) * x) = l * (p_dt p * (c * v * x))).
  { intros x. rewrite <- Rmult_assoc. rewrite speed_units. ring. }
  assert (B : t * p_dt p * (c * (l / t * v) / (l * p_l1 p) * T) = p_dt p * (c * v / p_l1 p * T)).
  { unfold Rdiv at 1. replace (t * p_dt p * (c * (l / t * v) * / (l * p_l1 p) * T)) with (t * p_dt p * (c * (l / t * v)) * / (l * p_l1 p) * T) by ring.
    rewrite speed_units. change (l * (p_dt p * (c * v)) * / (l * p_l1 p)) with (l * (p_dt p * (c * v)) / (l * p_l1 p)).
    rewrite div_units. unfold Rdiv. ring. }
  f_equal.
  - rewrite A. ring.
  - rewrite A. ring.
  - rewrite B. reflexivity.
  - f_equal. unfold Rdiv at 1. rewrite Rinv_mult.
    set (s := sin _). set (k := cos _).
    replace (t * p_dt p * ((c * (l / t * v) * s - l * p_lh p * (c * (l / t * v) / (l * p_l1 p) * T) * k) * (/ l * / p_l2 p)))
      with ((t * p_dt p * (c * (l / t * v) * s) - l * p_lh p * (t * p_dt p * (c * (l / t * v) / (l * p_l1 p) * T)) * k) * / l * / p_l2 p) by ring.
    rewrite A, B. unfold Rdiv.
    replace ((l * (p_dt p * (c * v * s)) - l * p_lh p * (p_dt p * (c * v * / p_l1 p * T)) * k) * / l * / p_l2 p)
      with (l * / l * ((p_dt p * (c * v * s) - p_lh p * (p_dt p * (c * v * / p_l1 p * T)) * k) * / p_l2 p)) by ring.
    rewrite Rinv_r by lra. ring.
Qed.

Lemma penalty_units p v : preference_penalty (units_params l t p) (l / t * v) = preference_penalty p v.
Proof.
  assert (Hlt : 0 < l / t) by (apply Rdiv_lt_0_compat; assumption).
  unfold preference_penalty. cbn [units_params p_pref_w p_motion].
  assert (E : t / l * p_pref_w p * Rabs (l / t * v) = p_pref_w p * Rabs v).
  { rewrite Rabs_mult, (Rabs_pos_eq (l / t)) by lra. field. lra. }
  rewrite E.
  assert (E1 : Rltb (l / t * v) 0 = Rltb v 0).
  { unfold Rltb. destruct (Rlt_dec (l / t * v) 0) as [H|H], (Rlt_dec v 0) as [K|K]; try reflexivity; exfalso.
    - apply K. apply Rmult_lt_reg_l with (l / t); lra.
    - apply H. replace 0 with (l / t * 0) by ring. apply Rmult_lt_compat_l; lra. }
  assert (E2 : Rltb 0 (l / t * v) = Rltb 0 v).
  { unfold Rltb. destruct (Rlt_dec 0 (l / t * v)) as [H|H], (Rlt_dec 0 v) as [K|K]; try reflexivity; exfalso.
    - apply K. apply Rmult_lt_reg_l with (l / t); lra.
    - apply H. apply Rmult_lt_0_compat; lra. }
  rewrite E1, E2. reflexivity.
Qed.
Lemma step_reward_units p base oc hv pen : step_reward (units_params l t p) base oc hv pen = step_reward p base oc hv pen.
Proof. reflexivity. Qed.
Lemma tt_dpos_units p xg q : tt_dpos (units_params l t p) (tt_units l xg) (tt_units l q) = l * tt_dpos p xg q.
Proof.
  unfold tt_dpos, tt_trailer_pos. cbn [tt_units t_px t_py t_th1 t_th2 units_params p_motion p_l1 p_lh p_l2].
  assert (E : forall x y z w, pnorm (psub (l * x, l * y) (l * z, l * w)) = l * pnorm (psub (x, y) (z, w))).
  { intros. apply (pnorm_units (x, y) (z, w)). }
  unfold where_. destruct (use_tractor (p_motion p)); rewrite <- E; f_equal; unfold psub; cbn [fst snd];
    apply injective_projections; cbn [fst snd]; ring.
Qed.
Lemma switch_units d thr k : sigmoid ((l * thr - l * d) / (l * k)) = sigmoid ((thr - d) / k).
Proof. f_equal. rewrite <- Rmult_minus_distr_l. apply div_units. Qed.
Lemma tt_reward_units s q : tt_reward (tt_world_units l t s) (tt_units l q) = tt_reward s q.
Proof.
  unfold tt_reward. cbv zeta. cbn [tt_world_units ts_p ts_xg]. rewrite tt_dpos_units.
  cbn [units_params p_rew_thr p_motion p_head_w p_theta_max p_phi_max p_d_thr p_k_switch p_max_w p_hitch_w tt_units t_th1 t_th2].
  rewrite pos_reward_units, switch_units. reflexivity.
Qed.
Lemma tt_terminal_units s q : tt_terminal (tt_world_units l t s) (tt_units l q) = tt_terminal s q.
Proof.
  unfold tt_terminal. cbn [tt_world_units ts_p ts_xg]. rewrite tt_dpos_units. cbn [units_params p_term_thr]. apply pos_reward_units.
Qed.
Lemma tt_step_units s proj proj' guide guide' viz :
  p_proj (ts_p s) = false -> p_guid (ts_p s) = false -> tt_sized (ts_p s) -> tt_sized (units_params l t (ts_p s)) ->
  proper_obstacles (ts_circ s) (ts_rect s) ->
  sim_step (fun q q' => q' = tt_units l q) (tt_step_internal s proj guide viz) (tt_step_internal (tt_world_units l t s) proj' guide' viz).
Proof.
  intros Hp Hg S S' O st st' a (Hq & _ & _ & Hb).
  rewrite (tt_step_shield s proj guide viz st a Hp Hg).
  rewrite (tt_step_shield (tt_world_units l t s) proj' guide' viz st' a Hp Hg). cbv zeta. rewrite <- Hb, Hq.
  change (ts_p (tt_world_units l t s)) with (units_params l t (ts_p s)).
  rewrite tt_plain_units. set (qp := tt_plain (ts_p s) _ _).
  assert (EC : ts_coll (tt_world_units l t s) (tt_units l qp) = ts_coll s qp).
  { unfold ts_coll. cbn [tt_world_units ts_p ts_circ ts_rect]. clearbody qp. exact (tt_coll_units _ _ _ _ S S' O). }
  assert (EH : ts_hitch (tt_world_units l t s) (tt_units l qp) = ts_hitch s qp).
  { clearbody qp. unfold ts_hitch. cbn [tt_world_units ts_p]. unfold tt_hitch. cbn [tt_units t_th1 t_th2 units_params p_phi_max]. reflexivity. }
  assert (EB : tt_bad (tt_world_units l t s) (tt_units l qp) = tt_bad s qp).
  { unfold tt_bad, enabled_bad. rewrite EC, EH. clearbody qp. cbn [tt_world_units ts_p units_params p_sh_coll p_sh_hitch]. reflexivity. }
  rewrite EB, EC, EH.
  assert (EQ : (if tt_bad s qp then tt_units l (st_q st) else tt_units l qp) = tt_units l (if tt_bad s qp then st_q st else qp))
    by (destruct (tt_bad s qp); reflexivity).
  rewrite EQ. unfold sim_state; cbn [st_q st_rew st_app st_bak].
  split; [reflexivity|]. split; [|split; reflexivity].
  rewrite step_reward_units, tt_reward_units. f_equal.
  change (p_vmax (units_params l t (ts_p s))) with (l / t * p_vmax (ts_p s)).
  set (c := fst _). replace (c * (l / t * p_vmax (ts_p s))) with (l / t * (c * p_vmax (ts_p s))) by ring.
  symmetry. apply penalty_units.
Qed.

(** ** Bicycle *)
Lemma bk_coll_units p circ rect q : tractor_sized p -> tractor_sized (units_params l t p) -> proper_obstacles circ rect ->
  bk_coll (units_params l t p) (map (circle_units l) circ) (map (rect_units l) rect) (bk_units l q) = bk_coll p circ rect q.
Proof.
  intros S S' O. apply bool_iff. rewrite !bk_coll_iff by (try assumption; apply proper_units; exact O).
  unfold bk_safe. assert (E : bk_bodies (units_params l t p) (bk_units l q) = map rg_units (bk_bodies p q)).
  { unfold bk_bodies. cbn [map]. rewrite <- tractor_units. reflexivity. }
  rewrite E. apply clear_units.
Qed.
Lemma bk_plain_units p q a : bk_plain (units_params l t p) (bk_units l q) a = bk_units l (bk_plain p q a).
Proof.
  pose proof (tt_plain_units p (mkTT (b_px q) (b_py q) (b_th q) 0) a) as E. unfold bk_plain, bk_units. cbn [b_px b_py b_th].
  unfold tt_plain, tt_units in E. cbn [t_px t_py t_th1 t_th2] in E.
  f_equal; [apply (f_equal t_px) in E|apply (f_equal t_py) in E|apply (f_equal t_th1) in E]; exact E.
Qed.
Lemma bk_dpos_units p xg q : bk_dpos (units_params l t p) (bk_units l xg) (bk_units l q) = l * bk_dpos p xg q.
Proof.
  unfold bk_dpos. cbn [bk_units b_px b_py b_th units_params p_l1].
  assert (E : forall x y z w, pnorm (psub (l * x, l * y) (l * z, l * w)) = l * pnorm (psub (x, y) (z, w))).
  { intros. apply (pnorm_units (x, y) (z, w)). }
  rewrite <- E. f_equal. unfold psub; cbn [fst snd]. apply injective_projections; cbn [fst snd]; ring.
Qed.
Lemma bk_reward_units s q : bk_reward (bk_world_units l t s) (bk_units l q) = bk_reward s q.
Proof.
  unfold bk_reward. cbv zeta. cbn [bk_world_units bs_p bs_xg]. rewrite bk_dpos_units.
  cbn [units_params p_rew_thr p_motion p_theta_max p_d_thr p_k_switch p_max_w bk_units b_th].
  rewrite pos_reward_units, switch_units. reflexivity.
Qed.
Lemma bk_terminal_units s q : bk_terminal (bk_world_units l t s) (bk_units l q) = bk_terminal s q.
Proof.
  unfold bk_terminal. cbn [bk_world_units bs_p bs_xg]. rewrite bk_dpos_units. cbn [units_params p_term_thr]. apply pos_reward_units.
Qed.
Lemma bk_step_units s proj proj' guide guide' viz :
  p_proj (bs_p s) = false -> p_guid (bs_p s) = false -> tractor_sized (bs_p s) -> tractor_sized (units_params l t (bs_p s)) ->
  proper_obstacles (bs_circ s) (bs_rect s) ->
  sim_step (fun q q' => q' = bk_units l q) (bk_step_internal s proj guide viz) (bk_step_internal (bk_world_units l t s) proj' guide' viz).
Proof.
  intros Hp Hg S S' O st st' a (Hq & _ & _ & Hb).
  rewrite (bk_step_shield s proj guide viz st a Hp Hg).
  rewrite (bk_step_shield (bk_world_units l t s) proj' guide' viz st' a Hp Hg). cbv zeta. rewrite <- Hb, Hq.
  change (bs_p (bk_world_units l t s)) with (units_params l t (bs_p s)).
  rewrite bk_plain_units. set (qp := bk_plain (bs_p s) _ _).
  assert (EC : bs_coll (bk_world_units l t s) (bk_units l qp) = bs_coll s qp).
  { unfold bs_coll. cbn [bk_world_units bs_p bs_circ bs_rect]. clearbody qp. exact (bk_coll_units _ _ _ _ S S' O). }
  assert (EB : bk_bad (bk_world_units l t s) (bk_units l qp) = bk_bad s qp).
  { unfold bk_bad, enabled_bad. rewrite EC. clearbody qp. cbn [bk_world_units bs_p units_params p_sh_coll p_sh_hitch]. reflexivity. }
  rewrite EB, EC.
  assert (EQ : (if bk_bad s qp then bk_units l (st_q st) else bk_units l qp) = bk_units l (if bk_bad s qp then st_q st else qp))
    by (destruct (bk_bad s qp); reflexivity).
  rewrite EQ. unfold sim_state; cbn [st_q st_rew st_app st_bak].
  split; [reflexivity|]. split; [|split; reflexivity].
  rewrite step_reward_units, bk_reward_units. f_equal.
  change (p_vmax (units_params l t (bs_p s))) with (l / t * p_vmax (bs_p s)).
  set (c := fst _). replace (c * (l / t * p_vmax (bs_p s))) with (l / t * (c * p_vmax (bs_p s))) by ring.
  symmetry. apply penalty_units.
Qed.
(** ** N trailers *)
Lemma jget_units xs i : jget (map (Rmult l) xs) i = l * jget xs i.
Proof.
  unfold jget. rewrite map_length. replace 0 with (l * 0) at 1 by ring. apply map_nth.
Qed.
Lemma chain_units lh w ths : forall h Ls lfs lrs,
  trailer_chain (l * lh) (l * w) (units_point l h) ths (map (Rmult l) Ls) (map (Rmult l) lfs) (map (Rmult l) lrs)
  = map rg_units (trailer_chain lh w h ths Ls lfs lrs).
Proof.
  induction ths as [|th ths IH]; intros h Ls lfs lrs; [reflexivity|].
  destruct Ls as [|L Ls]; [reflexivity|]. destruct lfs as [|lf lfs]; [reflexivity|]. destruct lrs as [|lr lrs]; [reflexivity|].
  cbn [map trailer_chain]. rewrite trailer_units.
  replace (- (l * L + l * lr + l * lh)) with (l * - (L + lr + lh)) by ring. rewrite ahead_units, IH. reflexivity.
Qed.
Lemma nt_bodies_units s q : nt_bodies (nt_world_units l t s) (nt_units l q) = map rg_units (nt_bodies s q).
Proof.
  unfold nt_bodies. cbn [map nt_world_units ns_p ns_len ns_front ns_rear nt_units n_px n_py n_th0 n_ths].
  rewrite tractor_units. cbn [units_params p_lh p_trail_w]. cbv zeta. f_equal. rewrite <- chain_units. f_equal.
  rewrite <- ahead_units. f_equal. ring.
Qed.
Lemma nt_coll_units s q : nt_sized s -> nt_sized (nt_world_units l t s) -> proper_obstacles (ns_circ s) (ns_rect s) ->
  length (n_ths q) = p_num_trailers (ns_p s) ->
  ns_coll (nt_world_units l t s) (nt_units l q) = ns_coll s q.
Proof.
  intros S S' O L. apply bool_iff. rewrite (nt_coll_iff s q) by assumption.
  rewrite (nt_coll_iff (nt_world_units l t s) (nt_units l q)).
  - unfold nt_clear. rewrite nt_bodies_units. cbn [nt_world_units ns_circ ns_rect]. apply clear_units.
  - exact S'.
  - cbn [nt_world_units ns_circ ns_rect]. apply proper_units; exact O.
  - cbn [nt_units n_ths nt_world_units ns_p units_params p_num_trailers]. exact L.
Qed.
Lemma trail_units dt lh ths : forall sp rate th Ls,
  trail (t * dt) (l * lh) (l / t * sp) (/ t * rate) th ths (map (Rmult l) Ls) = trail dt lh sp rate th ths Ls.
Proof.
  induction ths as [|a ths IH]; intros sp rate th Ls; [reflexivity|]. destruct Ls as [|L Ls]; [reflexivity|].
  cbn [map trail]. cbv zeta. set (s := sin (th - a)). set (c := cos (th - a)).
  assert (E1 : (l / t * sp * s - l * lh * (/ t * rate) * c) / (l * L) = / t * ((sp * s - lh * rate * c) / L)).
  { replace (l / t * sp * s - l * lh * (/ t * rate) * c) with (l * (/ t * (sp * s - lh * rate * c))) by (unfold Rdiv; ring).
    rewrite div_units. unfold Rdiv. ring. }
  assert (E2 : l / t * sp * c + l * lh * (/ t * rate) * s = l / t * (sp * c + lh * rate * s)) by (unfold Rdiv; ring).
  rewrite E1, E2, IH. f_equal.
  set (y := (sp * s - lh * rate * c) / L). replace (t * dt * (/ t * y)) with (t * / t * (dt * y)) by ring.
  rewrite Rinv_r by lra. ring.
Qed.
Lemma nt_plain_units s q a : nt_plain (nt_world_units l t s) (nt_units l q) a = nt_units l (nt_plain s q a).
Proof.
  unfold nt_plain, nt_units. cbv zeta.
  cbn [n_px n_py n_th0 n_ths nt_world_units ns_p ns_len units_params p_dt p_vmax p_l1 p_lh p_dmax].
  set (p := ns_p s). set (c := fst a). set (v := p_vmax p). set (T := tan (snd a * p_dmax p)).
  assert (A : forall x, t * p_dt p * (c * (l / t * v) * x) = l * (p_dt p * (c * v * x))).
  { intros x. rewrite <- Rmult_assoc. rewrite speed_units. ring. }
  assert (R : c * (l / t * v) / (l * p_l1 p) * T = / t * (c * v / p_l1 p * T)).
  { replace (c * (l / t * v)) with (l * (/ t * (c * v))) by (unfold Rdiv; ring). rewrite div_units. unfold Rdiv. ring. }
  rewrite R. replace (c * (l / t * v)) with (l / t * (c * v)) at 3 by ring. rewrite trail_units.
  f_equal.
  - rewrite A. ring.
  - rewrite A. ring.
  - set (y := c * v / p_l1 p * T). replace (t * p_dt p * (/ t * y)) with (t * / t * (p_dt p * y)) by ring. rewrite Rinv_r by lra. ring.
Qed.
Definition pair_units (c : pt * pt) : pt * pt := (units_point l (fst c), units_point l (snd c)).
Lemma last_body_units s ths c i : nt_last_body (nt_world_units l t s) ths (pair_units c) i = pair_units (nt_last_body s ths c i).
Proof.
  destruct c as ((hx, hy), k). unfold pair_units, units_point. cbn [fst snd]. unfold nt_last_body.
  cbn [nt_world_units ns_len ns_front]. cbv zeta. rewrite !jget_units. cbn [fst snd].
  apply injective_projections; cbn [fst snd]; apply injective_projections; cbn [fst snd]; ring.
Qed.
Lemma last_pos_units s q : nt_last_pos (nt_world_units l t s) (nt_units l q) = units_point l (nt_last_pos s q).
Proof.
  unfold nt_last_pos. cbv zeta. change (ns_N (nt_world_units l t s)) with (ns_N s).
  cbn [nt_world_units ns_p units_params p_lh nt_units n_px n_py n_th0 n_ths].
  set (h := (n_px q - p_lh (ns_p s) * cos (n_th0 q), n_py q - p_lh (ns_p s) * sin (n_th0 q))).
  assert (E : (l * n_px q - l * p_lh (ns_p s) * cos (n_th0 q), l * n_py q - l * p_lh (ns_p s) * sin (n_th0 q)) = units_point l h).
  { unfold units_point, h. cbn [fst snd]. apply injective_projections; cbn [fst snd]; ring. }
  rewrite E.
  assert (F : forall m c, fold_left (nt_last_body (nt_world_units l t s) (n_ths q)) m (pair_units c)
    = pair_units (fold_left (nt_last_body s (n_ths q)) m c)).
  { induction m as [|i m IH]; intros c; cbn [fold_left]; [reflexivity|]. rewrite last_body_units. apply IH. }
  exact (f_equal snd (F (seq 0 (ns_N s)) (h, h))).
Qed.
Lemma nt_dpos_units s q : nt_dpos (nt_world_units l t s) (nt_units l q) = l * nt_dpos s q.
Proof.
  unfold nt_dpos. cbv zeta. change (ns_xg (nt_world_units l t s)) with (nt_units l (ns_xg s)). rewrite !last_pos_units, pnorm_units.
  cbn [nt_world_units ns_p units_params p_l1 p_motion nt_units n_px n_py n_th0].
  assert (E : pnorm (psub (l * n_px q + l * p_l1 (ns_p s) * cos (n_th0 q), l * n_py q + l * p_l1 (ns_p s) * sin (n_th0 q))
      (l * n_px (ns_xg s), l * n_py (ns_xg s)))
    = l * pnorm (psub (n_px q + p_l1 (ns_p s) * cos (n_th0 q), n_py q + p_l1 (ns_p s) * sin (n_th0 q)) (n_px (ns_xg s), n_py (ns_xg s)))).
  { rewrite <- pnorm_units. f_equal. unfold psub, units_point. cbn [fst snd]. apply injective_projections; cbn [fst snd]; ring. }
  rewrite E. set (d1 := pnorm _). set (d2 := pnorm _).
  destruct (Z.eqb (p_motion (ns_p s)) 1 || Z.eqb (p_motion (ns_p s)) 2); [reflexivity|].
  destruct (Z.eqb (p_motion (ns_p s)) (-1) || Z.eqb (p_motion (ns_p s)) (-2)); [reflexivity|].
  clearbody d1 d2. unfold Rmin. destruct (Rle_dec (l * d1) (l * d2)) as [A|A], (Rle_dec d1 d2) as [B|B]; try reflexivity; exfalso.
  - apply B. apply le_units. exact A.
  - apply A. apply le_units. exact B.
Qed.
Lemma nt_reward_units s q : nt_reward (nt_world_units l t s) (nt_units l q) = nt_reward s q.
Proof. unfold nt_reward. rewrite nt_dpos_units. cbn [nt_world_units ns_p units_params p_rew_thr]. apply pos_reward_units. Qed.
Lemma nt_terminal_units s q : nt_terminal (nt_world_units l t s) (nt_units l q) = nt_terminal s q.
Proof. unfold nt_terminal. rewrite nt_dpos_units. cbn [nt_world_units ns_p units_params p_term_thr]. apply pos_reward_units. Qed.
Lemma nt_hitch_units s q : nt_hitch (nt_world_units l t s) (nt_units l q) = nt_hitch s q.
Proof.
  unfold nt_hitch. change (ns_N (nt_world_units l t s)) with (ns_N s).
  cbn [nt_world_units ns_p units_params p_phi_max nt_units n_th0 n_ths]. reflexivity.
Qed.
Lemma nt_step_units s guide guide' viz :
  p_guid (ns_p s) = false -> nt_sized s -> nt_sized (nt_world_units l t s) -> proper_obstacles (ns_circ s) (ns_rect s) ->
  sim_step (fun q q' => q' = nt_units l q /\ nt_valid s q) (nt_step_core s guide viz) (nt_step_core (nt_world_units l t s) guide' viz).
Proof.
  intros Hg S S' O st st' a (Hq & _ & _ & Hb). destruct Hq as [Hq Hv].
  assert (HL : length (ns_len s) = ns_N s) by (destruct S as (_ & _ & H & _); exact H).
  assert (HL' : length (ns_len (nt_world_units l t s)) = ns_N (nt_world_units l t s)) by (destruct S' as (_ & _ & H & _); exact H).
  assert (Hv' : nt_valid (nt_world_units l t s) (st_q st')) by (rewrite Hq; exact Hv).
  rewrite (nt_step_shield s guide viz st a Hg HL Hv).
  rewrite (nt_step_shield (nt_world_units l t s) guide' viz st' a Hg HL' Hv'). cbv zeta. rewrite <- Hb, Hq.
  rewrite nt_plain_units.
  assert (Vp : nt_valid s (nt_plain s (st_q st) (where_ (st_bak st) (0, 0) (clip_act a)))) by (apply nt_plain_valid; assumption).
  set (qp := nt_plain s _ _) in *.
  assert (EC : ns_coll (nt_world_units l t s) (nt_units l qp) = ns_coll s qp).
  { clearbody qp. exact (nt_coll_units _ _ S S' O Vp). }
  assert (EH : nt_hitch (nt_world_units l t s) (nt_units l qp) = nt_hitch s qp) by apply nt_hitch_units.
  assert (EB : nt_bad (nt_world_units l t s) (nt_units l qp) = nt_bad s qp).
  { unfold nt_bad, enabled_bad. rewrite EC, EH. clearbody qp. cbn [nt_world_units ns_p units_params p_sh_coll p_sh_hitch]. reflexivity. }
  rewrite EB, EC, EH.
  assert (EQ : (if nt_bad s qp then nt_units l (st_q st) else nt_units l qp) = nt_units l (if nt_bad s qp then st_q st else qp))
    by (destruct (nt_bad s qp); reflexivity).
  rewrite EQ. unfold sim_state; cbn [st_q st_rew st_app st_bak].
  split; [split; [reflexivity|destruct (nt_bad s qp); assumption]|]. split; [|split; reflexivity].
  change (ns_p (nt_world_units l t s)) with (units_params l t (ns_p s)).
  rewrite step_reward_units, nt_reward_units. f_equal.
  change (p_vmax (units_params l t (ns_p s))) with (l / t * p_vmax (ns_p s)).
  set (c := fst _). replace (c * (l / t * p_vmax (ns_p s))) with (l / t * (c * p_vmax (ns_p s))) by ring.
  symmetry. apply penalty_units.
Qed.
End Units.
(** ** Demonstration scores *)
Section Scores.
Variables (l t : R).
Hypothesis Hl : 0 < l.
Lemma clip_score_units d thr : clip_score (l * d) (l * thr) = clip_score d thr.
Proof. unfold clip_score. rewrite clip_units by exact Hl. rewrite div_units by exact Hl. reflexivity. Qed.
Lemma logpd_row_units p pref P th1 th2 r :
  logpd_row (units_params l t p) pref (units_point l P) th1 th2 (row_units l r) = logpd_row p pref P th1 th2 r.
Proof.
  unfold logpd_row. cbv zeta. change (f_pos (row_units l r)) with (units_point l (f_pos r)).
  cbn [units_params p_ref_thr p_ref_pos_w p_ref_th1_w p_ref_th2_w p_phi_max row_units f_th1 f_th2 f_mask].
  rewrite pnorm_units by exact Hl. rewrite clip_score_units. reflexivity.
Qed.
Lemma map2_units {A B : Type} (fa : A -> A) (fb : B -> B) (h h' : A -> B -> R) :
  (forall x r, h' (fa x) (fb r) = h x r) -> forall xs rs, map2 h' (map fa xs) (map fb rs) = map2 h xs rs.
Proof.
  intros E. induction xs as [|x xs IH]; intros [|r rs]; cbn [map map2]; try reflexivity. rewrite E, IH. reflexivity.
Qed.
Lemma tt_score_units s xref xs pref :
  tt_logpd (tt_world_units l t s) (map (row_units l) xref) (map (tt_units l) xs) pref = tt_logpd s xref xs pref.
Proof.
  unfold tt_logpd. cbv zeta. f_equal. apply map2_units. intros x r.
  cbn [tt_world_units ts_p]. rewrite <- (logpd_row_units (ts_p s)).
  cbn [tt_units t_th1 t_th2]. f_equal. unfold where_. destruct (use_tractor pref).
  - reflexivity.
  - unfold tt_trailer_pos, units_point. cbn [units_params tt_units p_lh p_l2 t_px t_py t_th1 t_th2 fst snd].
    apply injective_projections; cbn [fst snd]; ring.
Qed.
Lemma bk_score_units s xref xs pref :
  bk_logpd (bk_world_units l t s) (map (row_units l) xref) (map (bk_units l) xs) pref = bk_logpd s xref xs pref.
Proof.
  unfold bk_logpd. f_equal. apply map2_units. intros x r. unfold bk_logpd_row. cbv zeta.
  change (f_pos (row_units l r)) with (units_point l (f_pos r)).
  cbn [bk_world_units bs_p bk_units b_px b_py b_th units_params p_ref_thr p_ref_pos_w p_ref_th1_w p_phi_max row_units f_th1 f_mask].
  change (l * b_px x, l * b_py x) with (units_point l (b_px x, b_py x)).
  rewrite pnorm_units by exact Hl. rewrite clip_score_units. reflexivity.
Qed.
Lemma nt_score_units s xref xs pref :
  nt_logpd (nt_world_units l t s) (map (row_units l) xref) (map (nt_units l) xs) pref = nt_logpd s xref xs pref.
Proof.
  unfold nt_logpd. cbv zeta. f_equal. apply map2_units. intros x r.
  rewrite last_pos_units by exact Hl. change (ns_p (nt_world_units l t s)) with (units_params l t (ns_p s)).
  change (nt_th1 (nt_units l x)) with (nt_th1 x). change (n_th0 (nt_units l x)) with (n_th0 x).
  rewrite <- (logpd_row_units (ns_p s)). f_equal. unfold where_. destruct (use_tractor pref); reflexivity.
Qed.
End Scores.
Lemma rel_map {A : Type} (f : A -> A) l l' : Forall2 (fun q q' => q' = f q) l l' -> l' = map f l.
Proof. induction 1 as [|a b m m' H F IH]; cbn [map]; [reflexivity|]. subst. reflexivity. Qed.

(** C79: in other units of length and time - every length of the vehicle, scene and reward multiplied by l, the time step by
    tau, speeds accordingly - the same noise gives a tractor-trailer the same controls and reward, and the same trajectory in
    the new units. *)
Lemma l_C79_tt_units :
  forall (l tau : R) (s : tt_self) (x0 : ttq) proj proj' guide guide' logpd logpd' rx (g : cfg) (rg : prng) out out',
  0 < l -> 0 < tau -> p_proj (ts_p s) = false -> p_guid (ts_p s) = false ->
  tt_sized (ts_p s) -> tt_sized (units_params l tau (ts_p s)) -> proper_obstacles (ts_circ s) (ts_rect s) ->
  (forall qs k, logpd' (map (tt_units l) qs) k = logpd qs k) ->
  run_diffusion (tt_penv s x0 proj guide logpd rx) (Some g) rg = Ok out ->
  run_diffusion (tt_penv (tt_world_units l tau s) (tt_units l x0) proj' guide' logpd' rx) (Some g) rg = Ok out' ->
  o_Y0 out' = o_Y0 out /\ o_rew out' = o_rew out /\ o_traj out' = map (tt_units l) (o_traj out) /\ o_Ybars out' = o_Ybars out.
Proof.
  intros l tau s x0 proj proj' guide guide' logpd logpd' rx g rg out out' Hl Ht Hp Hg S S' O HL E E'.
  injection E as <-. injection E' as <-.
  assert (E : sim_env (fun q q' => q' = tt_units l q) (tt_penv s x0 proj guide logpd rx)
                (tt_penv (tt_world_units l tau s) (tt_units l x0) proj' guide' logpd' rx)).
  { constructor; try reflexivity; try (apply tt_step_units; assumption).
    - repeat split.
    - intros q q' ->. symmetry. apply tt_terminal_units; assumption.
    - intros qs qs' k F. rewrite (rel_map _ _ _ F). symmetry. apply HL. }
  destruct (run_sim _ _ _ g rg E) as (A & B & C & D). apply rel_map in D. auto.
Qed.
(** C79 for the bicycle. *)
Lemma l_C79_bk_units :
  forall (l tau : R) (s : bk_self) (x0 : bkq) proj proj' guide guide' logpd logpd' rx (g : cfg) (rg : prng) out out',
  0 < l -> 0 < tau -> p_proj (bs_p s) = false -> p_guid (bs_p s) = false ->
  tractor_sized (bs_p s) -> tractor_sized (units_params l tau (bs_p s)) -> proper_obstacles (bs_circ s) (bs_rect s) ->
  (forall qs k, logpd' (map (bk_units l) qs) k = logpd qs k) ->
  run_diffusion (bk_penv s x0 proj guide logpd rx) (Some g) rg = Ok out ->
  run_diffusion (bk_penv (bk_world_units l tau s) (bk_units l x0) proj' guide' logpd' rx) (Some g) rg = Ok out' ->
  o_Y0 out' = o_Y0 out /\ o_rew out' = o_rew out /\ o_traj out' = map (bk_units l) (o_traj out) /\ o_Ybars out' = o_Ybars out.
Proof.
  intros l tau s x0 proj proj' guide guide' logpd logpd' rx g rg out out' Hl Ht Hp Hg S S' O HL E E'.
  injection E as <-. injection E' as <-.
  assert (E : sim_env (fun q q' => q' = bk_units l q) (bk_penv s x0 proj guide logpd rx)
                (bk_penv (bk_world_units l tau s) (bk_units l x0) proj' guide' logpd' rx)).
  { constructor; try reflexivity; try (apply bk_step_units; assumption).
    - repeat split.
    - intros q q' ->. symmetry. apply bk_terminal_units; assumption.
    - intros qs qs' k F. rewrite (rel_map _ _ _ F). symmetry. apply HL. }
  destruct (run_sim _ _ _ g rg E) as (A & B & C & D). apply rel_map in D. auto.
Qed.

(** C79 for N trailers. *)
Lemma l_C79_nt_units :
  forall (l tau : R) (s : nt_self) (x0 : ntq) guide guide' logpd logpd' rx (g : cfg) (rg : prng) out out',
  0 < l -> 0 < tau -> p_guid (ns_p s) = false ->
  nt_sized s -> nt_sized (nt_world_units l tau s) -> proper_obstacles (ns_circ s) (ns_rect s) ->
  (forall qs k, logpd' (map (nt_units l) qs) k = logpd qs k) ->
  nt_run s x0 guide logpd rx g rg = Ok out ->
  nt_run (nt_world_units l tau s) (nt_units l x0) guide' logpd' rx g rg = Ok out' ->
  o_Y0 out' = o_Y0 out /\ o_rew out' = o_rew out /\ o_traj out' = map (nt_units l) (o_traj out) /\ o_Ybars out' = o_Ybars out.
Proof.
  intros l tau s x0 guide guide' logpd logpd' rx g rg out out' Hl Ht Hg S S' O HL E E'.
  unfold nt_run in E, E'. destruct (Nat.eqb (length (n_ths x0)) (ns_N s)) eqn:EN; cbn [negb] in E; [|discriminate].
  apply Nat.eqb_eq in EN. change (length (n_ths (nt_units l x0))) with (length (n_ths x0)) in E'.
  change (ns_N (nt_world_units l tau s)) with (ns_N s) in E'. rewrite EN, Nat.eqb_refl in E'. cbn [negb] in E'.
  change (p_proj (ns_p (nt_world_units l tau s))) with (p_proj (ns_p s)) in E'.
  destruct (p_proj (ns_p s)); [discriminate|].
  injection E as <-. injection E' as <-.
  assert (E : sim_env (fun q q' => q' = nt_units l q /\ nt_valid s q) (nt_penv s x0 guide logpd rx)
                (nt_penv (nt_world_units l tau s) (nt_units l x0) guide' logpd' rx)).
  { constructor; try reflexivity; try (apply nt_step_units; assumption).
    - split; [split; [reflexivity|exact EN]|]. repeat split.
    - intros q q' [-> _]. symmetry. apply nt_terminal_units; assumption.
    - intros qs qs' k F. assert (F' : Forall2 (fun q q' => q' = nt_units l q) qs qs').
      { induction F as [|? ? ? ? [H _] F IH]; constructor; auto. }
      rewrite (rel_map _ _ _ F'). symmetry. apply HL. }
  destruct (run_sim _ _ _ g rg E) as (A & B & C & D).
  assert (D' : forall a b, Forall2 (fun q q' => q' = nt_units l q /\ nt_valid s q) a b -> b = map (nt_units l) a).
  { induction 1 as [|? ? ? ? [H _] F IH]; cbn [map]; [reflexivity|]. subst. reflexivity. }
  apply D' in D. auto.
Qed.

(** C79: the planner's own score of a demonstration - the code's evaluation of a trajectory against a stored reference - reads the
    same in both units when the reference is converted too, so it meets the requirement on score functions above. *)
Lemma l_C79_scores_same_in_both_units : forall (l tau : R) xref pref, 0 < l ->
  (forall (s : tt_self) xs, tt_logpd (tt_world_units l tau s) (map (row_units l) xref) (map (tt_units l) xs) pref = tt_logpd s xref xs pref) /\
  (forall (s : bk_self) xs, bk_logpd (bk_world_units l tau s) (map (row_units l) xref) (map (bk_units l) xs) pref = bk_logpd s xref xs pref) /\
  (forall (s : nt_self) xs, nt_logpd (nt_world_units l tau s) (map (row_units l) xref) (map (nt_units l) xs) pref = nt_logpd s xref xs pref).
Proof.
  intros l tau xref pref Hl. split; [|split]; intros s xs.
  - apply tt_score_units; exact Hl.
  - apply bk_score_units; exact Hl.
  - apply nt_score_units; exact Hl.
Qed.

(** Following a demonstration: the tractor-trailer planner guided by a stored reference returns the same plan in other units when
    the reference positions are converted with the rest. *)
Lemma l_C79_tt_units_with_demonstration :
  forall (l tau : R) (s : tt_self) (x0 : ttq) proj proj' guide guide' xref rx (g : cfg) (rg : prng) out out',
  0 < l -> 0 < tau -> p_proj (ts_p s) = false -> p_guid (ts_p s) = false ->
  tt_sized (ts_p s) -> tt_sized (units_params l tau (ts_p s)) -> proper_obstacles (ts_circ s) (ts_rect s) ->
  run_diffusion (tt_penv s x0 proj guide (tt_logpd s xref) rx) (Some g) rg = Ok out ->
  run_diffusion (tt_penv (tt_world_units l tau s) (tt_units l x0) proj' guide'
    (tt_logpd (tt_world_units l tau s) (map (row_units l) xref)) rx) (Some g) rg = Ok out' ->
  o_Y0 out' = o_Y0 out /\ o_rew out' = o_rew out /\ o_traj out' = map (tt_units l) (o_traj out) /\ o_Ybars out' = o_Ybars out.
Proof.
  intros l tau s x0 proj proj' guide guide' xref rx g rg out out' Hl Ht Hp Hg S S' O E E'.
  apply (l_C79_tt_units l tau s x0 proj proj' guide guide' (tt_logpd s xref)
    (tt_logpd (tt_world_units l tau s) (map (row_units l) xref)) rx g rg out out'); try assumption.
  intros qs k. apply tt_score_units; exact Hl.
Qed.

(** The default vehicle in its example scene, in millimetres and milliseconds instead of metres and seconds: the plan from the
    default start is the same, for every noise, planner configuration and score function that reads the same in both units. *)
Lemma x_C79_millimetres : forall proj guide logpd logpd' rx (g : cfg) (rg : prng) out out',
  (forall qs k, logpd' (map (tt_units 1000) qs) k = logpd qs k) ->
  run_diffusion (tt_penv ex_tt (mkTT 3 0 0 0) proj guide logpd rx) (Some g) rg = Ok out ->
  run_diffusion (tt_penv (mkTTSelf (units_params 1000 1000 default_params)
      [mkCircle (1000 * 0) (1000 * 10) (1000 * 1)] [mkRect (1000 * 20) (1000 * 0) (1000 * 4) (1000 * 4) 0]
      (mkTT (1000 * 0) (1000 * 0) PI PI)) (mkTT (1000 * 3) (1000 * 0) 0 0) proj guide logpd' rx) (Some g) rg = Ok out' ->
  o_Y0 out' = o_Y0 out /\ o_rew out' = o_rew out.
Proof.
  intros proj guide logpd logpd' rx g rg out out' HL E E'.
  assert (OE : proper_obstacles ex_circ ex_rect).
  { split; [intros c [<-|[]]; cbn; lra|]. intros o Ho. unfold ex_rect in Ho.
    repeat (destruct Ho as [<-|Ho]; [cbn; lra|]). destruct Ho. }
  assert (S' : tt_sized (units_params 1000 1000 default_params)).
  { pose proof default_sized as ((A & B) & C & D). unfold tt_sized, tractor_sized.
    cbn [units_params p_l1 p_lf1 p_lr p_trac_w p_lf2 p_lr2 p_trail_w]. lra. }
  destruct (l_C79_tt_units 1000 1000 ex_tt (mkTT 3 0 0 0) proj proj guide guide logpd logpd' rx g rg out out') as (A & B & _);
    try lra; try exact E'; try exact E; try exact HL; try exact OE; try exact S'; try exact default_sized.
  - reflexivity.
  - reflexivity.
  - auto.
Qed.
(** Its step and speed limit in those units: 200 ms and 3 mm per ms. *)
Lemma x_C79_millimetre_vehicle :
  p_dt (units_params 1000 1000 default_params) = 200 /\ p_vmax (units_params 1000 1000 default_params) = 3 /\
  p_rew_thr (units_params 1000 1000 default_params) = 1000 * p_rew_thr default_params.
Proof.
  cbn [units_params p_dt p_vmax p_rew_thr]. change (p_dt default_params) with (2 / 10). change (p_vmax default_params) with 3.
  repeat split; lra.
Qed.

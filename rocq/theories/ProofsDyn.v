(** * ProofsDyn: the vehicle dynamics roll without slipping (C20). *)
From Verif Require Import Base BaseFacts Params Geom TT2d Bicycle NTrailer SpecGeom SpecBodies SpecDyn SpecMotion
  ProofsGeom ProofsBodies ProofsRobots ProofsSafety.

(** Heading rates along the chain. *)
Fixpoint rates (lh speed rate th : R) (ths Ls : list R) : list R :=
  match ths, Ls with
  | t :: ths', L :: Ls' =>
      let d := th - t in
      let rate' := (speed * sin d - lh * rate * cos d) / L in
      let speed' := speed * cos d + lh * rate * sin d in
      rate' :: rates lh speed' rate' t ths' Ls'
  | _, _ => []
  end.
Lemma rates_length lh ths : forall sp r th Ls, length ths = length Ls -> length (rates lh sp r th ths Ls) = length ths.
Proof. induction ths as [|t ths IH]; intros sp r th [|L Ls]; simpl; intros; try discriminate; auto. Qed.
Lemma trail_rates dt lh ths : forall sp r th Ls,
  trail dt lh sp r th ths Ls = map2 (fun a b => a + dt * b) ths (rates lh sp r th ths Ls).
Proof. induction ths as [|t ths IH]; intros sp r th [|L Ls]; simpl; auto. f_equal. apply IH. Qed.
Lemma map2_add_inj l : forall m n, length m = length l -> length n = length l ->
  map2 (fun a b => a + 1 * b) l m = map2 (fun a b => a + 1 * b) l n -> m = n.
Proof.
  induction l as [|x l IH]; intros [|a m] [|b n]; simpl; intros; try discriminate; auto.
  injection H1 as E1 E2. f_equal; [lra|]. apply IH; auto.
Qed.

Lemma nt_dyn_rates s q v delta : length (n_ths q) = ns_N s -> length (ns_len s) = ns_N s ->
  nt_dyn s q (v, delta) =
  mkNT (v * cos (n_th0 q)) (v * sin (n_th0 q)) (v / p_l1 (ns_p s) * tan delta)
    (rates (p_lh (ns_p s)) v (v / p_l1 (ns_p s) * tan delta) (n_th0 q) (n_ths q) (ns_len s)).
Proof.
  intros H1 H2. unfold nt_dyn. f_equal.
  set (init := mkNTC _ _ _ _).
  destruct (nt_dyn_fold s v delta (n_ths q) (ns_N s) 0 init) with (dt := 1) as [E (tail & Et & Hl)]; try lia.
  - intros _. split; reflexivity.
  - cbn [k_dots init] in Et. change ([] ++ tail) with tail in Et.
    cbn [skipn length k_dots init k_speed k_dot k_theta] in E. rewrite trail_rates in E.
    rewrite Et in E |- *. apply map2_add_inj in E; auto; [lia|]. apply rates_length. lia.
Qed.

(** Derivatives of drawbar terms. *)
Lemma dcos f t d : derivable_pt_lim f t d -> derivable_pt_lim (fun x => cos (f x)) t (- sin (f t) * d).
Proof. intros H. apply (derivable_pt_lim_comp f cos t d (- sin (f t)) H). apply derivable_pt_lim_cos. Qed.
Lemma dsin f t d : derivable_pt_lim f t d -> derivable_pt_lim (fun x => sin (f x)) t (cos (f t) * d).
Proof. intros H. apply (derivable_pt_lim_comp f sin t d (cos (f t)) H). apply derivable_pt_lim_sin. Qed.
Lemma dscal c f t d : derivable_pt_lim f t d -> derivable_pt_lim (fun x => c * f x) t (c * d).
Proof. intros H. apply (derivable_pt_lim_scal f c t d H). Qed.
Lemma dminus f g t d e : derivable_pt_lim f t d -> derivable_pt_lim g t e -> derivable_pt_lim (fun x => f x - g x) t (d - e).
Proof. intros. apply (derivable_pt_lim_minus f g t d e); auto. Qed.

(** The velocity of every axle points along its heading. *)
Lemma chain_no_slip lh t : forall ths Ls a speed rate,
  length ths = length Ls -> (forall L, In L Ls -> L <> 0) ->
  derivable_pt_lim (ax_x a) t (speed * cos (ax_th a t)) ->
  derivable_pt_lim (ax_y a) t (speed * sin (ax_th a t)) ->
  derivable_pt_lim (ax_th a) t rate ->
  Forall2 (fun f d => derivable_pt_lim f t d) ths (rates lh speed rate (ax_th a t) (map (fun f => f t) ths) Ls) ->
  Forall (no_slip t) (axles lh a ths Ls).
Proof.
  induction ths as [|th ths IH]; intros [|L Ls] a speed rate Hl HL Hx Hy Hth HF; try discriminate.
  - constructor; [|constructor]. exists (speed * cos (ax_th a t)), (speed * sin (ax_th a t)). repeat split; auto. ring.
  - cbn [axles]. constructor.
    + exists (speed * cos (ax_th a t)), (speed * sin (ax_th a t)). repeat split; auto. ring.
    + cbn [map rates] in HF. inversion HF as [|? ? ? ? Hd HF']; subst. clear HF.
      set (d := ax_th a t - th t) in *.
      set (rate' := (speed * sin d - lh * rate * cos d) / L) in *.
      set (speed' := speed * cos d + lh * rate * sin d) in *.
      assert (HL0 : L <> 0) by (apply HL; left; auto).
      assert (HLr : L * rate' = speed * sin d - lh * rate * cos d) by (unfold rate'; field; auto).
      assert (Ea : ax_th a t = d + th t) by (unfold d; ring).
      eapply (IH Ls _ speed' rate'); cbn [ax_x ax_y ax_th]; auto.
      * intros L' H'. apply HL. right; auto.
      * replace (speed' * cos (th t)) with
          (speed * cos (ax_th a t) - lh * (- sin (ax_th a t) * rate) - L * (- sin (th t) * rate')).
        -- apply dminus; [apply dminus; auto|]; apply dscal; apply dcos; auto.
        -- replace (L * (- sin (th t) * rate')) with (- sin (th t) * (L * rate')) by ring. rewrite HLr.
           rewrite Ea, cos_plus, sin_plus. unfold speed'. ring.
      * replace (speed' * sin (th t)) with
          (speed * sin (ax_th a t) - lh * (cos (ax_th a t) * rate) - L * (cos (th t) * rate')).
        -- apply dminus; [apply dminus; auto|]; apply dscal; apply dsin; auto.
        -- replace (L * (cos (th t) * rate')) with (cos (th t) * (L * rate')) by ring. rewrite HLr.
           rewrite Ea, cos_plus, sin_plus. unfold speed'. ring.
Qed.

(** C20, N trailers: along any motion that obeys the modelled dynamics under any (possibly
    time-varying) speed and steering, no axle slips sideways. *)
Lemma l_C20_nt_no_slip :
  forall (s : nt_self) (px py th0 : R -> R) (ths : list (R -> R)) (v delta t : R),
  length ths = p_num_trailers (ns_p s) -> length (ns_len s) = p_num_trailers (ns_p s) ->
  (forall L, In L (ns_len s) -> L <> 0) ->
  let rate := nt_dyn s (mkNT (px t) (py t) (th0 t) (map (fun f => f t) ths)) (v, delta) in
  derivable_pt_lim px t (n_px rate) -> derivable_pt_lim py t (n_py rate) ->
  derivable_pt_lim th0 t (n_th0 rate) ->
  Forall2 (fun f d => derivable_pt_lim f t d) ths (n_ths rate) ->
  Forall (no_slip t) (axles (p_lh (ns_p s)) (mkAxle px py th0) ths (ns_len s)).
Proof.
  intros s px py th0 ths v delta t H1 H2 HL. cbv zeta.
  rewrite nt_dyn_rates; [|cbn; rewrite map_length; auto|auto]. cbn [n_px n_py n_th0 n_ths].
  intros Hx Hy Ht HF. eapply chain_no_slip; cbn [ax_x ax_y ax_th]; eauto. congruence.
Qed.

(** C20, tractor with one trailer. *)
Lemma l_C20_tt_no_slip :
  forall (p : params) (px py th1 th2 : R -> R) (v delta t : R), p_l2 p <> 0 ->
  let rate := tt_dyn p (mkTT (px t) (py t) (th1 t) (th2 t)) (v, delta) in
  derivable_pt_lim px t (t_px rate) -> derivable_pt_lim py t (t_py rate) ->
  derivable_pt_lim th1 t (t_th1 rate) -> derivable_pt_lim th2 t (t_th2 rate) ->
  Forall (no_slip t) (axles (p_lh p) (mkAxle px py th1) [th2] [p_l2 p]).
Proof.
  intros p px py th1 th2 v delta t HL. cbv zeta. cbn [tt_dyn t_px t_py t_th1 t_th2]. intros Hx Hy H1 H2.
  eapply chain_no_slip with (rate := v / p_l1 p * tan delta); cbn [ax_x ax_y ax_th]; eauto.
  - intros L [<-|[]]; auto.
  - cbn. constructor; [|constructor].
    replace ((v * sin (th1 t - th2 t) - p_lh p * (v / p_l1 p * tan delta) * cos (th1 t - th2 t)) / p_l2 p)
      with (v / p_l2 p * (sin (th1 t - th2 t) - p_lh p / p_l1 p * cos (th1 t - th2 t) * tan delta)); auto.
    unfold Rdiv; ring.
Qed.

(** C20: the position the tractor-trailer class reports for its trailer is that axle. *)
Lemma l_C20_tt_trailer_position_is_axle :
  forall (p : params) (px py th1 th2 : R -> R) (t : R),
  map (fun a => (ax_x a t, ax_y a t)) (axles (p_lh p) (mkAxle px py th1) [th2] [p_l2 p])
  = [(px t, py t); tt_trailer_pos p (mkTT (px t) (py t) (th1 t) (th2 t))].
Proof. reflexivity. Qed.

(** C20, bicycle. *)
Lemma l_C20_bk_no_slip :
  forall (p : params) (px py th : R -> R) (v delta t : R),
  let rate := bk_dyn p (mkBK (px t) (py t) (th t)) (v, delta) in
  derivable_pt_lim px t (b_px rate) -> derivable_pt_lim py t (b_py rate) -> derivable_pt_lim th t (b_th rate) ->
  Forall (no_slip t) (axles (p_lh p) (mkAxle px py th) [] []).
Proof.
  intros p px py th v delta t. cbv zeta. cbn. intros Hx Hy Ht.
  constructor; [|constructor]. exists (v * cos (th t)), (v * sin (th t)). cbn. repeat split; auto. ring.
Qed.

(** C20: the front axle of the tractor (l1 ahead) moves along the steered wheel direction:
    the bicycle's steering geometry. *)
Lemma l_C20_front_wheel_no_slip :
  forall (p : params) (px py th : R -> R) (v delta t : R), p_l1 p <> 0 -> cos delta <> 0 ->
  let rate := bk_dyn p (mkBK (px t) (py t) (th t)) (v, delta) in
  derivable_pt_lim px t (b_px rate) -> derivable_pt_lim py t (b_py rate) -> derivable_pt_lim th t (b_th rate) ->
  exists vx vy,
    derivable_pt_lim (fun u => px u + p_l1 p * cos (th u)) t vx /\
    derivable_pt_lim (fun u => py u + p_l1 p * sin (th u)) t vy /\
    - vx * sin (th t + delta) + vy * cos (th t + delta) = 0.
Proof.
  intros p px py th v delta t Hl Hc. cbv zeta. cbn. intros Hx Hy Ht.
  exists (v * cos (th t) - p_l1 p * (sin (th t) * (v / p_l1 p * tan delta))),
         (v * sin (th t) + p_l1 p * (cos (th t) * (v / p_l1 p * tan delta))).
  split; [|split].
  - replace (v * cos (th t) - p_l1 p * (sin (th t) * (v / p_l1 p * tan delta)))
      with (v * cos (th t) + p_l1 p * (- sin (th t) * (v / p_l1 p * tan delta))) by ring.
    apply (derivable_pt_lim_plus px (fun u => p_l1 p * cos (th u))); auto. apply dscal. apply dcos; auto.
  - apply (derivable_pt_lim_plus py (fun u => p_l1 p * sin (th u))); auto. apply dscal. apply dsin; auto.
  - rewrite sin_plus, cos_plus. unfold tan.
    set (S := sin (th t)) in *. set (C := cos (th t)) in *. set (a := sin delta). set (c := cos delta) in *.
    replace (p_l1 p * (S * (v / p_l1 p * (a / c)))) with (S * v * a / c) by (field; auto).
    replace (p_l1 p * (C * (v / p_l1 p * (a / c)))) with (C * v * a / c) by (field; auto).
    field. auto.
Qed.

(** C20: one trailer of the N-trailer class moves like the tractor-trailer class, and both
    move their tractor like the bicycle class. *)
Lemma l_C20_models_nest :
  forall (s : nt_self) (q : ttq) (u : act), p_num_trailers (ns_p s) = 1%nat -> ns_len s = [p_l2 (ns_p s)] ->
  let p := ns_p s in
  nt_dyn s (mkNT (t_px q) (t_py q) (t_th1 q) [t_th2 q]) u
    = mkNT (t_px (tt_dyn p q u)) (t_py (tt_dyn p q u)) (t_th1 (tt_dyn p q u)) [t_th2 (tt_dyn p q u)] /\
  bk_dyn p (mkBK (t_px q) (t_py q) (t_th1 q)) u
    = mkBK (t_px (tt_dyn p q u)) (t_py (tt_dyn p q u)) (t_th1 (tt_dyn p q u)).
Proof.
  intros s q [v delta] HN HL p. split; [|reflexivity].
  unfold nt_dyn. unfold ns_N. rewrite HN. cbn. unfold jget; rewrite HL. cbn. reflexivity.
Qed.
(** C20: adding trailers never changes how the front part of the train moves. *)
Lemma l_C20_front_part_unaffected :
  forall (s s' : nt_self) (q : ntq) (extra : list R) (u : act),
  p_lh (ns_p s') = p_lh (ns_p s) -> p_l1 (ns_p s') = p_l1 (ns_p s) ->
  length (n_ths q) = p_num_trailers (ns_p s) -> length (ns_len s) = p_num_trailers (ns_p s) ->
  length (n_ths q ++ extra) = p_num_trailers (ns_p s') -> length (ns_len s') = p_num_trailers (ns_p s') ->
  firstn (p_num_trailers (ns_p s)) (ns_len s') = ns_len s ->
  let big := nt_dyn s' (mkNT (n_px q) (n_py q) (n_th0 q) (n_ths q ++ extra)) u in
  let small := nt_dyn s q u in
  n_px big = n_px small /\ n_py big = n_py small /\ n_th0 big = n_th0 small /\
  firstn (p_num_trailers (ns_p s)) (n_ths big) = n_ths small.
Proof.
  intros s s' q extra [v delta] Eh El H1 H2 H3 H4 H5. cbv zeta.
  rewrite !nt_dyn_rates by auto. cbn [n_px n_py n_th0 n_ths]. rewrite Eh, El. repeat split.
  rewrite <- H1 in *. clear H3 H4 Eh El.
  set (rt := v / p_l1 (ns_p s) * tan delta). clearbody rt.
  set (lh := p_lh (ns_p s)). clearbody lh.
  generalize dependent (ns_len s). generalize dependent (ns_len s').
  generalize (n_th0 q). revert v rt. generalize (n_ths q). clear.
  induction l as [|t ths IH]; intros v rt th0 Ls' Ls HL E.
  - destruct Ls; [|discriminate]. reflexivity.
  - destruct Ls as [|L Ls]; [discriminate|]. destruct Ls' as [|L' Ls']; [discriminate|].
    simpl in E. injection E as -> E. cbn [app rates length firstn]. f_equal. apply IH; auto.
Qed.

(** Non-vacuity: straight driving at 3 m/s with two trailers is such a motion. *)
Lemma x_C20_straight_drive :
  let rate := nt_dyn ex_nt (mkNT (3 * 7) 0 0 [0; 0]) (3, 0) in
  derivable_pt_lim (fun t => 3 * t) 7 (n_px rate) /\ derivable_pt_lim (fun _ => 0) 7 (n_py rate) /\
  derivable_pt_lim (fun _ => 0) 7 (n_th0 rate) /\
  Forall2 (fun f d => derivable_pt_lim f 7 d) [(fun _ => 0); (fun _ => 0)] (n_ths rate).
Proof.
  cbv zeta. rewrite nt_dyn_rates by reflexivity. cbn [n_px n_py n_th0 n_ths].
  rewrite cos_0, sin_0, tan_0. unfold ex_nt, nt_default_lengths; cbn [ns_p ns_len repeat p_num_trailers ex_ntp two_trailers rates].
  rewrite Rminus_0_r, cos_0, sin_0. repeat match goal with |- _ /\ _ => split end.
  - apply dscal. apply derivable_pt_lim_id.
  - replace (3 * 0) with 0 by ring. apply (derivable_pt_lim_const 0).
  - replace (3 / _ * 0) with 0 by ring. apply (derivable_pt_lim_const 0).
  - constructor; [|constructor; [|constructor]].
    + match goal with |- derivable_pt_lim _ _ ?x => replace x with 0 by (unfold Rdiv; ring) end. apply (derivable_pt_lim_const 0).
    + match goal with |- derivable_pt_lim _ _ ?x => replace x with 0 by (unfold Rdiv; ring) end. apply (derivable_pt_lim_const 0).
Qed.

(** C20 (finding): with two or more trailers the three places of the code that locate the last
    trailer's axle disagree: the dynamics roll about an axle hitched lh behind the previous
    axle, the collision check places the body lh behind the previous body's rear face, and
    the reward uses a hitch lf in front of the previous axle. Straight train, default sizes. *)
Lemma l_C20_nt_last_axle_positions_disagree_refuted :
  exists (s : nt_self) (q : ntq), nt_sized s /\ p_num_trailers (ns_p s) = 2%nat /\
    length (n_ths q) = 2%nat /\
    let in_dynamics := - (p_lh (ns_p s) + nth 0 (ns_len s) 0 + p_lh (ns_p s) + nth 1 (ns_len s) 0) in
    map (fun a => ax_x a 0) (axles (p_lh (ns_p s)) (mkAxle (fun _ => n_px q) (fun _ => n_py q) (fun _ => n_th0 q))
                         (map (fun th (_ : R) => th) (n_ths q)) (ns_len s))
      = [0; - (p_lh (ns_p s) + nth 0 (ns_len s) 0); in_dynamics] /\
    fst (rg_org (nth 2 (nt_bodies s q) (tractor_body (ns_p s) 0 0 0))) = in_dynamics - nth 0 (ns_rear s) 0 /\
    fst (nt_last_pos s q) = in_dynamics + p_lh (ns_p s) + nth 0 (ns_front s) 0 /\
    nth 0 (ns_rear s) 0 = 1848/1000 /\ p_lh (ns_p s) + nth 0 (ns_front s) 0 = 257/100.
Proof.
  exists ex_nt, (mkNT 0 0 0 [0; 0]).
  split; [unfold nt_sized, tractor_sized, ex_nt, ex_ntp, default_params; cbn; repeat split; try lra;
    intros [|[|i]] Hi; try lia; cbn; lra|].
  split; [reflexivity|]. split; [reflexivity|]. cbv zeta.
  unfold ex_nt, nt_default_lengths, nt_default_rear, nt_default_front, ex_ntp, default_params, nt_last_pos, jget; cbn.
  rewrite cos_0. repeat split; try lra. repeat (f_equal; try lra).
Qed.

(** C20 (finding): the collision-checked body of the second trailer does slip sideways: in a
    turn with aligned headings its axle has lateral velocity -lr*theta1'. *)
Definition drawn_axle2 (s : nt_self) (px py th0 th1 th2 : R -> R) : axle :=
  mkAxle (fun t => fst (rg_org (nth 2 (nt_bodies s (mkNT (px t) (py t) (th0 t) [th1 t; th2 t])) (tractor_body (ns_p s) 0 0 0))))
         (fun t => snd (rg_org (nth 2 (nt_bodies s (mkNT (px t) (py t) (th0 t) [th1 t; th2 t])) (tractor_body (ns_p s) 0 0 0)))) th2.
(** C20 (finding): the second trailer's axle as the collision check (and the drawing) places it slips sideways under the code's own dynamics. *)
Lemma l_C20_nt_drawn_trailer_slips_refuted :
  exists (s : nt_self) (px py th0 th1 th2 : R -> R) (v delta : R), nt_sized s /\
  Rabs v <= p_vmax (ns_p s) /\ Rabs delta <= p_dmax (ns_p s) /\
  let rate := nt_dyn s (mkNT (px 0) (py 0) (th0 0) [th1 0; th2 0]) (v, delta) in
  derivable_pt_lim px 0 (n_px rate) /\ derivable_pt_lim py 0 (n_py rate) /\
  derivable_pt_lim th0 0 (n_th0 rate) /\
  Forall2 (fun f d => derivable_pt_lim f 0 d) [th1; th2] (n_ths rate) /\
  exists vx vy, derivable_pt_lim (ax_x (drawn_axle2 s px py th0 th1 th2)) 0 vx /\
    derivable_pt_lim (ax_y (drawn_axle2 s px py th0 th1 th2)) 0 vy /\
    - vx * sin (th2 0) + vy * cos (th2 0) <> 0.
Proof.
  set (tn := tan (PI / 4)).
  set (w0 := 3 / p_l1 (ns_p ex_nt) * tan (PI / 4)).
  set (w1 := (3 * sin 0 - p_lh (ns_p ex_nt) * w0 * cos 0) / (29 / 10)).
  set (w2 := ((3 * cos 0 + p_lh (ns_p ex_nt) * w0 * sin 0) * sin 0 - p_lh (ns_p ex_nt) * w1 * cos 0) / (29 / 10)).
  exists ex_nt, (fun t => 3 * t), (fun _ => 0), (fun t => w0 * t), (fun t => w1 * t), (fun t => w2 * t), 3, (PI / 4).
  split; [unfold nt_sized, tractor_sized, ex_nt, ex_ntp, default_params; cbn; repeat split; try lra;
    intros [|[|i]] Hi; try lia; cbn; lra|].
  split; [cbn; rewrite Rabs_right; lra|].
  split; [cbn; unfold delta_max_of_deg; pose proof PI_RGT_0; rewrite Rabs_right; lra|].
  cbv zeta. rewrite nt_dyn_rates by reflexivity. cbn [n_px n_py n_th0 n_ths].
  assert (D : forall c, derivable_pt_lim (fun t => c * t) 0 c).
  { intros c. pose proof (dscal c id 0 1 (derivable_pt_lim_id 0)) as Hd. rewrite Rmult_1_r in Hd. exact Hd. }
  rewrite !Rmult_0_r. rewrite cos_0, sin_0.
  split; [rewrite Rmult_1_r; apply D|].
  split; [rewrite Rmult_0_r; apply (derivable_pt_lim_const 0)|].
  split; [apply D|].
  split.
  { unfold ex_nt at 3. unfold nt_default_lengths; cbn [ns_len repeat p_num_trailers ex_ntp two_trailers rates].
    rewrite Rminus_0_r. constructor; [apply D|constructor; [apply D|constructor]]. }
  set (lh := 115/100). set (L := 29/10). set (lr := 1848/1000).
  exists (3 - lh * (- sin (w0 * 0) * w0) - (L + lr + lh) * (- sin (w1 * 0) * w1) - L * (- sin (w2 * 0) * w2)),
         (0 - lh * (cos (w0 * 0) * w0) - (L + lr + lh) * (cos (w1 * 0) * w1) - L * (cos (w2 * 0) * w2)).
  assert (Hw1 : L * w1 = - lh * w0).
  { unfold w1, L, lh. rewrite sin_0, cos_0. unfold ex_nt, ex_ntp, default_params; cbn [ns_p p_lh two_trailers]. field. }
  assert (Hw2 : L * w2 = - lh * w1).
  { unfold w2, L, lh. rewrite sin_0, cos_0. unfold ex_nt, ex_ntp, default_params; cbn [ns_p p_lh two_trailers]. field. }
  assert (Hw0 : 0 < w0).
  { unfold w0. rewrite tan_PI4. unfold ex_nt, ex_ntp, default_params; cbn. lra. }
  split; [|split].
  - apply (derivable_pt_lim_ext (fun t => 3 * t - lh * cos (w0 * t) - (L + lr + lh) * cos (w1 * t) - L * cos (w2 * t))).
    { intros t. cbn. unfold lh, L, lr. unfold nt_default_rear; cbn. lra. }
    repeat apply dminus; try apply dscal; try apply dcos; try apply D.
  - apply (derivable_pt_lim_ext (fun t => 0 - lh * sin (w0 * t) - (L + lr + lh) * sin (w1 * t) - L * sin (w2 * t))).
    { intros t. cbn. unfold lh, L, lr. unfold nt_default_rear; cbn. lra. }
    repeat apply dminus; try apply dscal; try apply dsin; try apply D. apply (derivable_pt_lim_const 0).
  - rewrite !Rmult_0_r, cos_0.
    assert (w1 <> 0) by (intros E; rewrite E in Hw1; unfold L, lh in Hw1; lra).
    intros Hc. apply H. unfold lr in Hc. lra.
Qed.

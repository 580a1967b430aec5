(** * Planner: run_diffusion of mbd/planners/mbd_planner.py (one run, nothing cached; the JIT
    cache across runs is modelled in Cache.v). *)
From Verif Require Import Base Params Rollout.

(** Configuration fields read by run_diffusion (mbd_planner.py:50-117). *)
Record cfg : Type := mkCfg {
  g_seed : Z;
  g_Nsample : nat; g_Hsample : nat; g_Ndiffuse : nat;
  g_temp : R; g_beta0 : R; g_betaT : R;
  g_demo : bool;                 (* enable_demo *)
  g_motion : Z;                  (* motion_preference *)
  g_guid : bool                  (* enable_guidance *)
}.

(** The JAX PRNG, abstract: PRNGKey, split, and a standard normal array of shape
    (Nsample, Hsample, 2). *)
Record prng : Type := mkPrng {
  key : Type;
  prng_key : Z -> key;
  prng_split : key -> key * key;
  prng_normal : key -> nat -> nat -> list (list act)
}.

(** What run_diffusion uses of the environment object. *)
Record penv (Q : Type) : Type := mkPenv {
  pe_reset : State Q;                       (* env.reset(.) *)
  pe_step : State Q -> act -> State Q;      (* env.step = _step_internal(., ., False) *)
  pe_step_viz : State Q -> act -> State Q;  (* _step_internal(., ., True) *)
  pe_terminal : Q -> R;                     (* get_terminal_reward *)
  pe_term_w : R;                            (* terminal_reward_weight *)
  pe_steer_w : R;                           (* steering_weight *)
  pe_dmax : R;                              (* delta_max *)
  pe_logpd : list Q -> Z -> R;              (* eval_xref_logpd(qs, motion_preference=.) *)
  pe_rew_xref : R                           (* rew_xref after compute_demonstration_reward *)
}.
Arguments mkPenv {Q}. Arguments pe_reset {Q}. Arguments pe_step {Q}. Arguments pe_step_viz {Q}.
Arguments pe_terminal {Q}. Arguments pe_term_w {Q}. Arguments pe_steer_w {Q}.
Arguments pe_dmax {Q}. Arguments pe_logpd {Q}. Arguments pe_rew_xref {Q}.

(** jnp.linspace(a, b, n) (mbd_planner.py:298). *)
Definition linspace (a b : R) (n : nat) : list R :=
  map (fun k => a + INR k * ((b - a) / INR (n - 1))) (seq 0 n).

(** jnp.cumprod (mbd_planner.py:300). *)
Fixpoint cumprod_from (acc : R) (l : list R) : list R :=
  match l with [] => [] | x :: xs => (acc * x) :: cumprod_from (acc * x) xs end.
Definition cumprod (l : list R) : list R := cumprod_from 1 l.

(** betas, alphas, alphas_bar, sigmas (mbd_planner.py:298-301). *)
Definition betas (g : cfg) : list R := linspace (g_beta0 g) (g_betaT g) (g_Ndiffuse g).
Definition alphas (g : cfg) : list R := map (fun b => 1 - b) (betas g).
Definition alphas_bar (g : cfg) : list R := cumprod (alphas g).
Definition sigmas (g : cfg) : list R := map (fun a => sqrt (1 - a)) (alphas_bar g).

(** jnp.diff (mbd_planner.py:321). *)
Fixpoint diffs (l : list R) : list R :=
  match l with
  | x :: ((y :: _) as rest) => (y - x) :: diffs rest
  | _ => []
  end.

(** compute_steering_reward for one sample (mbd_planner.py:304-336). *)
Definition steering_reward (dmax : R) (us : list act) : R :=
  let deltas := map snd us in
  let deltas_scaled := map (fun d => d * dmax) deltas in
  let r_delta := map (fun d => 1 - Rabs d * Rabs d) deltas in
  let thr := 1/10 * dmax in
  let r_dot := map (fun e => 1 - clip ((Rabs e / thr) * (Rabs e / thr)) 0 1) (diffs deltas_scaled) in
  let r_dot_padded := 1 :: r_dot in
  Rmean (map2 (fun a b => 5/10 * (a + b)) r_delta r_dot_padded).

(** jax.nn.softmax (mbd_planner.py:420). *)
Definition softmax (l : list R) : list R :=
  let z := Rsum (map exp l) in map (fun x => exp x / z) l.

(** jnp.einsum("n,nij->ij", weights, Y) (mbd_planner.py:421) for Y of shape (n, H, 2). *)
Definition weighted (f : act -> R) (ws : list R) (Ys : list (list act)) (t : nat) : R :=
  Rsum (map2 (fun w Y => w * f (nth t Y (0, 0))) ws Ys).
Definition einsum_avg (H : nat) (ws : list R) (Ys : list (list act)) : list act :=
  map (fun t => (weighted fst ws Ys t, weighted snd ws Ys t)) (seq 0 H).

Definition act_scale (c : R) (a : act) : act := (c * fst a, c * snd a).
Definition act_add (a b : act) : act := (fst a + fst b, snd a + snd b).

(** Direction enforcement on the first control component (mbd_planner.py:368-392). *)
Definition enforce_motion (motion : Z) (a : act) : act :=
  let v := fst a in
  (where_ (Z.eqb motion 2) (clip v 0 1)
     (where_ (Z.eqb motion (-2)) (clip v (-1) 0) v), snd a).

(** Sampling, clipping and enforcement (mbd_planner.py:363-392) for one sample. *)
Definition make_sample (motion : Z) (scale : R) (Ybar : list act) (eps : list act) : list act :=
  map2 (fun e y => enforce_motion motion (clip_act (act_add (act_scale scale e) y))) eps Ybar.

Section Run.
Context {Q : Type}.
Variable env : penv Q.
Variable g : cfg.

Definition rollout_term (us : list act) : R * list Q * list act :=
  rollout_us_with_terminal (pe_step env) (pe_terminal env) (pe_term_w env) (pe_reset env) us.

(** Log-scores of the samples (mbd_planner.py:404-417): [rews] are the combined rewards, [qss]
    the state sequences. rew_std below 1e-4 is replaced by 1. *)
Definition log_scores (rews : list R) (qss : list (list Q)) : list R :=
  let std0 := Rstd rews in
  let std := where_ (Rltb std0 (1 / 10000)) 1 std0 in
  let mean := Rmean rews in
  let logp0 := map (fun r => (r - mean) / std / g_temp g) rews in
  if g_demo g then
    let lps := map (fun qs => pe_logpd env qs (g_motion g)) qss in
    let lmax := Rmax_of lps in
    let logpdemo := map (fun l => (l - lmax + pe_rew_xref env - mean) / std / g_temp g) lps in
    map2 (fun d l => where_ (Rltb l d) d l) logpdemo logp0
  else logp0.

(** Everything reverse_once computes from the sampled controls (mbd_planner.py:395-421):
    (applied controls, combined rewards, weights). *)
Definition evaluate_samples (Y0s : list (list act)) : list (list act) * list R * list R :=
  let outs := map rollout_term Y0s in
  let effective := map snd outs in
  let rews := map2 (fun o us => fst (fst o) + pe_steer_w env * steering_reward (pe_dmax env) us)
                outs effective in
  let qss := map (fun o => snd (fst o)) outs in
  (effective, rews, softmax (log_scores rews qss)).

(** Body of reverse_once (mbd_planner.py:345-428) with the drawn noise [eps], where [ab], [ab1],
    [al], [sg] are alphas_bar[i], alphas_bar[i-1], alphas[i], sigmas[i]: the new mean control
    sequence and the mean combined reward. *)
Definition reverse_once_with (ab ab1 al sg : R) (eps : list (list act)) (Ybar_i : list act) : list act * R :=
  let Yi := map (act_scale (sqrt ab)) Ybar_i in
  let Y0s := map (make_sample (g_motion g) (sg / sqrt ab1) Ybar_i) eps in
  let '(effective, rews, weights) := evaluate_samples Y0s in
  let Ybar := einsum_avg (g_Hsample g) weights effective in
  let score := map2 (fun yi yb => act_scale (1 / (1 - ab)) (act_add (act_scale (-1) yi) (act_scale (sqrt ab) yb)))
                 Yi Ybar in
  let Yim1 := map2 (fun yi s => act_scale (1 / sqrt al) (act_add yi (act_scale (1 - ab) s))) Yi score in
  (map (act_scale (/ sqrt ab1)) Yim1, Rmean rews).
(** reverse_once at index [i] with the schedule of the same run (the indices used are in range). *)
Definition reverse_once (i : nat) (eps : list (list act)) (Ybar_i : list act) : list act * R :=
  reverse_once_with (nth i (alphas_bar g) 0) (nth (i - 1) (alphas_bar g) 0)
    (nth i (alphas g) 0) (nth i (sigmas g) 0) eps Ybar_i.

(** reverse (mbd_planner.py:478-507): all intermediate means (Ybars) and the final one. *)
Fixpoint reverse_loop (rg : prng) (is : list nat) (k : key rg) (Yi : list act)
  : list (list act) * list act :=
  match is with
  | [] => ([], Yi)
  | i :: rest =>
      let '(k', ksample) := prng_split rg k in
      let eps := prng_normal rg ksample (g_Nsample g) (g_Hsample g) in
      let '(Y', _) := reverse_once i eps Yi in
      let '(Ybars, Yfin) := reverse_loop rg rest k' Y' in
      (Y' :: Ybars, Yfin)
  end.

(** YN = zeros (mbd_planner.py:260); indices Ndiffuse-1 .. 1 (line 495). *)
Definition YN : list act := repeat (0, 0) (g_Hsample g).
Definition diffusion_indices : list nat := rev (seq 1 (g_Ndiffuse g - 1)).

Record result : Type := mkResult {
  o_rew : R;                    (* rew_final *)
  o_Y0 : list act;              (* Y0: applied control sequence *)
  o_traj : list Q;              (* trajectory_states *)
  o_Ybars : list (list act)     (* intermediate means, used by the denoising animation *)
}.

(** run_diffusion (mbd_planner.py:189-751) without demo generation, caching, timing and
    rendering. The warm-up calls (lines 262-294, 451) have no effect on the results. *)
Definition run_diffusion_core (rg : prng) : result :=
  let k0 := prng_key rg (g_seed g) in
  let k1 := fst (prng_split rg k0) in              (* rng, rng_reset = split(rng) *)
  let kexp := fst (prng_split rg k1) in            (* rng_exp, rng = split(rng) *)
  let '(Ybars, Yfin) := reverse_loop rg diffusion_indices kexp YN in
  let Y0 := snd (rollout_term Yfin) in             (* lines 512-514 *)
  let step := if g_guid g then pe_step_viz env else pe_step env in
  let xs := trajectory_states step (pe_reset env) Y0 in
  let rew := fst (fst (rollout_term Y0)) in        (* line 733 *)
  mkResult rew Y0 xs Ybars.
End Run.
Arguments o_rew {Q}. Arguments o_Y0 {Q}. Arguments o_traj {Q}. Arguments o_Ybars {Q}.
Arguments mkResult {Q}.

(** args=None raises ValueError (mbd_planner.py:205-206). *)
Definition run_diffusion {Q : Type} (env : penv Q) (args : option cfg) (rg : prng) : Res (result (Q := Q)) :=
  match args with
  | None => Err ValueError
  | Some g => Ok (run_diffusion_core env g rg)
  end.

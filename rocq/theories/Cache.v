(** * Cache: traced functions, the module-level dictionary of mbd_planner.py and histories of
    constructions, attribute changes, cache clears and planner runs.

    What jax.jit does, as far as it matters here: a function decorated with
    @partial(jax.jit, static_argnums=(0,)) is traced on its first call for a given object (the
    object is a static argument, compared by identity) and the trace, which holds the attribute
    values read at that moment, answers all later calls. A jax.jit(f) made inside run_diffusion has
    its own traces, one per array shape and value of static arguments.

    Simplifications: traced methods represented one by one are reset, get_reward,
    get_terminal_reward and _step_internal; the methods they call (collision test, dynamics,
    input_scaler, ...) are read together with them. Traces depend on the object and the static
    arguments (and on Hsample for the rollouts), not on array dtypes. All states have one type [Q]
    (in the code: arrays). The objects passed to one call stay alive, so identities are not
    reused. Timing, rendering and logging are left out. *)
From Coq Require Import String.
From Verif Require Import Base Params Rollout Planner.

(** A robot class as the planner sees it: [D] are the attributes of an object except the
    demonstration, [X] is the demonstration (xref and angle_mask). *)
Record methods (D X Q : Type) : Type := mkMethods {
  m_jit_reset : bool;                       (* reset is decorated with jax.jit *)
  m_reset : D -> State Q;                   (* reset *)
  m_reward : D -> Q -> R;                   (* get_reward *)
  m_terminal : D -> Q -> R;                 (* get_terminal_reward *)
  m_step : D -> (Q -> R) -> bool -> State Q -> act -> State Q;
                                            (* _step_internal, given the get_reward it calls *)
  m_term_w : D -> R;                        (* attribute terminal_reward_weight *)
  m_steer_w : D -> R;                       (* attribute steering_weight *)
  m_dmax : D -> R;                          (* attribute delta_max *)
  m_gen : D -> Z -> Res X;                  (* generate_demonstration_trajectory *)
  m_score : D -> X -> (Q -> R) -> (Q -> R) -> R;
                                            (* compute_demonstration_reward, given get_reward and
                                               get_terminal_reward *)
  m_logpd : D -> option X -> list Q -> Z -> R;  (* eval_xref_logpd *)
  m_unguided : D -> D                       (* the object after env.enable_guidance = False *)
}.
Arguments mkMethods {D X Q}. Arguments m_jit_reset {D X Q}. Arguments m_reset {D X Q}.
Arguments m_reward {D X Q}. Arguments m_terminal {D X Q}. Arguments m_step {D X Q}.
Arguments m_term_w {D X Q}. Arguments m_steer_w {D X Q}. Arguments m_dmax {D X Q}.
Arguments m_gen {D X Q}. Arguments m_score {D X Q}. Arguments m_logpd {D X Q}.
Arguments m_unguided {D X Q}.

(** An environment object: type(env).__name__, attributes, xref, rew_xref. *)
Record obj (D X : Type) : Type := mkObj {
  ob_class : string; ob_data : D; ob_ref : option X; ob_rx : R }.
Arguments mkObj {D X}. Arguments ob_class {D X}. Arguments ob_data {D X}.
Arguments ob_ref {D X}. Arguments ob_rx {D X}.

(** What a trace of rollout_us_with_terminal holds (utils.py:36-51). *)
Record roll_trace (Q : Type) : Type := mkRoll {
  rt_step : State Q -> act -> State Q; rt_terminal : Q -> R; rt_term_w : R }.
Arguments mkRoll {Q}. Arguments rt_step {Q}. Arguments rt_terminal {Q}. Arguments rt_term_w {Q}.

(** config_params_tuple (mbd_planner.py:485-492): motion_preference, temp_sample, enable_demo,
    Nsample, Hsample (Nu is 2 for every class). *)
Definition rkey : Type := (Z * R * bool * nat * nat)%type.
Definition key_of (g : cfg) : rkey := (g_motion g, g_temp g, g_demo g, g_Nsample g, g_Hsample g).
Definition key_eqb (a b : rkey) : bool :=
  let '(m1, t1, d1, n1, h1) := a in
  let '(m2, t2, d2, n2, h2) := b in
  Z.eqb m1 m2 && Reqb t1 t2 && Bool.eqb d1 d2 && Nat.eqb n1 n2 && Nat.eqb h1 h2.
(** The configuration inside reverse_once: everything that is in the static tuple comes from there
    (mbd_planner.py:359), the rest from its closure. *)
Definition key_cfg (k : rkey) (gc : cfg) : cfg :=
  let '(motion, temp, demo, n, h) := k in
  mkCfg (g_seed gc) n h (g_Ndiffuse gc) temp (g_beta0 gc) (g_betaT gc) demo motion (g_guid gc).

(** What a trace of reverse_once holds (mbd_planner.py:345-428), apart from its arguments and the
    schedule of its closure: the static arguments it was traced with (destructured at 359), the
    traced rollout and what it read from the object. *)
Record rev_trace (Q : Type) : Type := mkRev {
  rr_key : rkey; rr_roll : roll_trace Q; rr_steer_w : R; rr_dmax : R; rr_logpd : list Q -> Z -> R; rr_rx : R }.
Arguments mkRev {Q}. Arguments rr_key {Q}. Arguments rr_roll {Q}. Arguments rr_steer_w {Q}. Arguments rr_dmax {Q}.
Arguments rr_logpd {Q}. Arguments rr_rx {Q}.

(** The entry "<class>_env_funcs" (mbd_planner.py:243-246): identity of the new
    rollout_us_with_terminal_jit and the object whose methods it wraps. *)
Record env_funcs : Type := mkFuncs { ef_id : nat; ef_obj : nat }.
(** The entry "reverse_once_function" (mbd_planner.py:345-431): its identity and closure: the
    configuration whose schedule it captured, the object, the rollout functions. *)
Record rev_func : Type := mkRevFunc { rf_id : nat; rf_cfg : cfg; rf_obj : nat; rf_funcs : env_funcs }.

(** The state of the process. *)
Record world (D X Q : Type) : Type := mkWorld {
  w_objs : nat; w_obj : nat -> obj D X;          (* number of objects made; the objects *)
  w_fns : nat;                                   (* number of jitted functions made by runs *)
  w_env : string -> option env_funcs;            (* _jit_function_cache, per class name *)
  w_rev : option rev_func;                       (* _jit_function_cache["reverse_once_function"] *)
  t_reset : nat -> option (State Q);             (* traces, per object *)
  t_reward : nat -> option (Q -> R);
  t_terminal : nat -> option (Q -> R);
  t_step : nat -> bool -> option (State Q -> act -> State Q);
  t_roll : nat -> nat -> option (roll_trace Q);  (* per function and Hsample *)
  t_rev : nat -> rkey -> option (rev_trace Q) }. (* per function and static tuple *)
Arguments mkWorld {D X Q}. Arguments w_objs {D X Q}. Arguments w_obj {D X Q}. Arguments w_fns {D X Q}.
Arguments w_env {D X Q}. Arguments w_rev {D X Q}. Arguments t_reset {D X Q}. Arguments t_reward {D X Q}.
Arguments t_terminal {D X Q}. Arguments t_step {D X Q}. Arguments t_roll {D X Q}. Arguments t_rev {D X Q}.

(** Assigning one entry of a table. *)
Definition upd {A : Type} (f : nat -> A) (k : nat) (v : A) : nat -> A :=
  fun n => if Nat.eqb n k then v else f n.
Definition upd_key {A : Type} (f : rkey -> A) (k : rkey) (v : A) : rkey -> A :=
  fun n => if key_eqb n k then v else f n.
Definition upd_bool {A : Type} (f : bool -> A) (k : bool) (v : A) : bool -> A :=
  fun n => if Bool.eqb n k then v else f n.
Definition upd_str {A : Type} (f : string -> A) (k : string) (v : A) : string -> A :=
  fun n => if String.eqb n k then v else f n.

Section Cache.
Context {D X Q : Type}.
Variable cls : string -> methods D X Q.
Local Notation W := (world D X Q).

Definition put_obj (w : W) (o : nat) (b : obj D X) : W :=
  mkWorld (w_objs w) (upd (w_obj w) o b) (w_fns w) (w_env w) (w_rev w)
    (t_reset w) (t_reward w) (t_terminal w) (t_step w) (t_roll w) (t_rev w).
Definition meth (w : W) (o : nat) : methods D X Q := cls (ob_class (w_obj w o)).
Definition data (w : W) (o : nat) : D := ob_data (w_obj w o).

(** Calls of the decorated methods: answer from the trace, or trace now. *)
(** reset (tt2d.py:263-266, kinematic_bicycle2d.py:77-80, acc_tt2d.py:77-80: decorated;
    n_trailer2d.py:102-103: not decorated). *)
Definition call_reset (w : W) (o : nat) : W * State Q :=
  if m_jit_reset (meth w o) then
    match t_reset w o with
    | Some v => (w, v)
    | None =>
        let v := m_reset (meth w o) (data w o) in
        (mkWorld (w_objs w) (w_obj w) (w_fns w) (w_env w) (w_rev w)
           (upd (t_reset w) o (Some v)) (t_reward w) (t_terminal w) (t_step w) (t_roll w) (t_rev w), v)
    end
  else (w, m_reset (meth w o) (data w o)).
(** get_reward (tt2d.py:705-793 and overrides). *)
Definition call_reward (w : W) (o : nat) : W * (Q -> R) :=
  match t_reward w o with
  | Some f => (w, f)
  | None =>
      let f := m_reward (meth w o) (data w o) in
      (mkWorld (w_objs w) (w_obj w) (w_fns w) (w_env w) (w_rev w)
         (t_reset w) (upd (t_reward w) o (Some f)) (t_terminal w) (t_step w) (t_roll w) (t_rev w), f)
  end.
(** get_terminal_reward (tt2d.py:795-851 and overrides). *)
Definition call_terminal (w : W) (o : nat) : W * (Q -> R) :=
  match t_terminal w o with
  | Some f => (w, f)
  | None =>
      let f := m_terminal (meth w o) (data w o) in
      (mkWorld (w_objs w) (w_obj w) (w_fns w) (w_env w) (w_rev w)
         (t_reset w) (t_reward w) (upd (t_terminal w) o (Some f)) (t_step w) (t_roll w) (t_rev w), f)
  end.
(** _step_internal with static visualization_mode (tt2d.py:301-384 and overrides); env.step is
    _step_internal(., ., False). *)
Definition call_step (w : W) (o : nat) (viz : bool) : W * (State Q -> act -> State Q) :=
  match t_step w o viz with
  | Some f => (w, f)
  | None =>
      let '(w1, rew) := call_reward w o in
      let f := m_step (meth w1 o) (data w1 o) rew viz in
      (mkWorld (w_objs w1) (w_obj w1) (w_fns w1) (w_env w1) (w_rev w1)
         (t_reset w1) (t_reward w1) (t_terminal w1)
         (upd (t_step w1) o (upd_bool (t_step w1 o) viz (Some f))) (t_roll w1) (t_rev w1), f)
  end.

(** rollout_us_with_terminal_jit for sequences of length H (mbd_planner.py:245, utils.py:36-51). *)
Definition call_roll (w : W) (fs : env_funcs) (H : nat) : W * roll_trace Q :=
  match t_roll w (ef_id fs) H with
  | Some r => (w, r)
  | None =>
      let o := ef_obj fs in
      let '(w1, st) := call_step w o false in
      let '(w2, tm) := call_terminal w1 o in
      let r := mkRoll st tm (m_term_w (meth w2 o) (data w2 o)) in
      (mkWorld (w_objs w2) (w_obj w2) (w_fns w2) (w_env w2) (w_rev w2)
         (t_reset w2) (t_reward w2) (t_terminal w2) (t_step w2)
         (upd (t_roll w2) (ef_id fs) (upd (t_roll w2 (ef_id fs)) H (Some r))) (t_rev w2), r)
  end.

(** reverse_once for the static tuple of [g] (mbd_planner.py:345-428). Simplification:
    compute_steering_reward (304-336) is traced together with it. *)
Definition call_rev (w : W) (rf : rev_func) (g : cfg) : W * rev_trace Q :=
  match t_rev w (rf_id rf) (key_of g) with
  | Some r => (w, r)
  | None =>
      let '(w1, roll) := call_roll w (rf_funcs rf) (g_Hsample g) in
      let o := rf_obj rf in
      let r := mkRev (key_of g) roll (m_steer_w (meth w1 o) (data w1 o)) (m_dmax (meth w1 o) (data w1 o))
                 (m_logpd (meth w1 o) (data w1 o) (ob_ref (w_obj w1 o))) (ob_rx (w_obj w1 o)) in
      (mkWorld (w_objs w1) (w_obj w1) (w_fns w1) (w_env w1) (w_rev w1)
         (t_reset w1) (t_reward w1) (t_terminal w1) (t_step w1) (t_roll w1)
         (upd (t_rev w1) (rf_id rf) (upd_key (t_rev w1 (rf_id rf)) (key_of g) (Some r))), r)
  end.

(** clear_jit_cache (mbd_planner.py:41-47): empties the dictionary, nothing else. *)
Definition clear_cache (w : W) : W :=
  mkWorld (w_objs w) (w_obj w) (w_fns w) (fun _ => None) None
    (t_reset w) (t_reward w) (t_terminal w) (t_step w) (t_roll w) (t_rev w).

(** Demonstration (mbd_planner.py:219-226). *)
Definition prepare_demo (w : W) (o : nat) (g : cfg) : W * Res unit :=
  if g_demo g then
    match m_gen (meth w o) (data w o) (g_motion g) with
    | Err e => (w, Err e)
    | Ok x =>
        let '(w1, rew) := call_reward w o in
        let '(w2, tm) := call_terminal w1 o in
        let rx := m_score (meth w2 o) (data w2 o) x rew tm in
        (put_obj w2 o (mkObj (ob_class (w_obj w2 o)) (data w2 o) (Some x) rx), Ok tt)
    end
  else (w, Ok tt).

(** The environment functions (mbd_planner.py:236-246). *)
Definition get_funcs (w : W) (o : nat) : W * env_funcs :=
  let c := ob_class (w_obj w o) in
  match w_env w c with
  | Some fs => (w, fs)
  | None =>
      let fs := mkFuncs (w_fns w) o in
      (mkWorld (w_objs w) (w_obj w) (S (w_fns w)) (upd_str (w_env w) c (Some fs)) (w_rev w)
         (t_reset w) (t_reward w) (t_terminal w) (t_step w) (t_roll w) (t_rev w), fs)
  end.
(** reverse_once (mbd_planner.py:340-344, 431); its key does not name the class. *)
Definition get_rev (w : W) (o : nat) (g : cfg) (fs : env_funcs) : W * rev_func :=
  match w_rev w with
  | Some rf => (w, rf)
  | None =>
      let rf := mkRevFunc (w_fns w) g o fs in
      (mkWorld (w_objs w) (w_obj w) (S (w_fns w)) (w_env w) (Some rf)
         (t_reset w) (t_reward w) (t_terminal w) (t_step w) (t_roll w) (t_rev w), rf)
  end.

(** The environment as seen through a trace of reverse_once called with state_init = [st0]. *)
Definition traced_env (r : rev_trace Q) (st0 : State Q) : penv Q :=
  mkPenv st0 (rt_step (rr_roll r)) (rt_step (rr_roll r)) (rt_terminal (rr_roll r))
    (rt_term_w (rr_roll r)) (rr_steer_w r) (rr_dmax r) (rr_logpd r) (rr_rx r).

(** reverse_once at index [i] with the schedule captured from the configuration [gc]; JAX clamps
    an index beyond the end of the captured arrays. *)
Definition cached_once (r : rev_trace Q) (st0 : State Q) (gc : cfg) (i : nat)
  (eps : list (list act)) (Y : list act) : list act * R :=
  reverse_once_with (traced_env r st0) (key_cfg (rr_key r) gc) (jget (alphas_bar gc) i) (jget (alphas_bar gc) (i - 1))
    (jget (alphas gc) i) (jget (sigmas gc) i) eps Y.
(** reverse (mbd_planner.py:478-507); the samples are drawn inside reverse_once, with the numbers of
    its static tuple. *)
Fixpoint cached_loop (once : nat -> list (list act) -> list act -> list act * R) (kk : rkey)
  (rg : prng) (is : list nat) (k : key rg) (Yi : list act) : list (list act) * list act :=
  match is with
  | [] => ([], Yi)
  | i :: rest =>
      let '(k', ksample) := prng_split rg k in
      let '(_, _, _, n, h) := kk in
      let eps := prng_normal rg ksample n h in
      let '(Y', _) := once i eps Yi in
      let '(Ybars, Yfin) := cached_loop once kk rg rest k' Y' in
      (Y' :: Ybars, Yfin)
  end.

(** run_diffusion returns the first component; the second is unguided_trajectory_states, used for
    rendering (mbd_planner.py:572-613). *)
Record output : Type := mkOut { out_res : result (Q := Q); out_unguided : option (list Q) }.

Definition roll_with (r : roll_trace Q) (st0 : State Q) (us : list act) : R * list Q * list act :=
  rollout_us_with_terminal (rt_step r) (rt_terminal r) (rt_term_w r) st0 us.

(** run_diffusion (mbd_planner.py:189-751) on object [o] in a process in state [w]. The
    warm-up calls of lines 262-294 only trace what lines 451 and 512 trace again. *)
Definition run (w : W) (o : nat) (g : cfg) (rg : prng) : W * Res output :=
  let '(w1, demo) := prepare_demo w o g in
  match demo with
  | Err e => (w1, Err e)
  | Ok _ =>
      let '(w2, fs) := get_funcs w1 o in
      let '(w3, st0) := call_reset w2 o in
      let '(w4, rf) := get_rev w3 o g fs in
      let '(w5, rev) := call_rev w4 rf g in                       (* line 451 *)
      let k0 := prng_key rg (g_seed g) in
      let k1 := fst (prng_split rg k0) in
      let kexp := fst (prng_split rg k1) in
      let '(Ybars, Yfin) :=
        cached_loop (cached_once rev st0 (rf_cfg rf)) (rr_key rev) rg (diffusion_indices g) kexp (YN g) in
      let '(w6, roll) := call_roll w5 fs (g_Hsample g) in         (* line 512 *)
      let Y0 := snd (roll_with roll st0 Yfin) in
      (* lines 532-564 *)
      let '(w7, step) := if g_guid g then call_step w6 o true else call_step w6 (ef_obj fs) false in
      let xs := trajectory_states step st0 Y0 in
      (* lines 572-613 *)
      let '(w8, unguided) :=
        if g_guid g then
          let wc := clear_cache w7 in
          let b := w_obj wc o in
          let wu := put_obj wc o (mkObj (ob_class b) (m_unguided (meth wc o) (ob_data b)) (ob_ref b) (ob_rx b)) in
          let '(wu', ustep) := call_step wu o false in
          (put_obj wu' o b, Some (trajectory_states ustep st0 Y0))
        else (w7, None) in
      (* line 733: the rollout function obtained above, even if the dictionary was cleared *)
      let '(w9, roll') := call_roll w8 fs (g_Hsample g) in
      let rew := fst (fst (roll_with roll' st0 Y0)) in
      (w9, Ok (mkOut (mkResult rew Y0 xs Ybars) unguided))
  end.

(** What a user does with the package. *)
Inductive op : Type :=
| New (c : string) (d : D)             (* env = get_env(...), attributes d *)
| Change (o : nat) (f : D -> D)        (* setters, attribute assignments on object o *)
| Clear                                (* clear_jit_cache() *)
| Run (o : nat) (g : cfg) (rg : prng)  (* run_diffusion(args=g, env=o) *)
| Reset (o : nat)                      (* direct calls of the object's methods *)
| Reward (o : nat)
| Terminal (o : nat)
| Step (o : nat) (viz : bool).

(** One operation; an object not made yet cannot be mentioned, so such an operation is skipped. *)
Definition exec (w : W) (a : op) : W :=
  let on (o : nat) (w' : W) := if Nat.ltb o (w_objs w) then w' else w in
  match a with
  | New c d => let w' := put_obj w (w_objs w) (mkObj c d None 0) in
      mkWorld (S (w_objs w')) (w_obj w') (w_fns w') (w_env w') (w_rev w')
        (t_reset w') (t_reward w') (t_terminal w') (t_step w') (t_roll w') (t_rev w')
  | Change o f => on o (let b := w_obj w o in
      put_obj w o (mkObj (ob_class b) (f (ob_data b)) (ob_ref b) (ob_rx b)))
  | Clear => clear_cache w
  | Run o g rg => on o (fst (run w o g rg))
  | Reset o => on o (fst (call_reset w o))
  | Reward o => on o (fst (call_reward w o))
  | Terminal o => on o (fst (call_terminal w o))
  | Step o viz => on o (fst (call_step w o viz))
  end.
Definition execs (w : W) (h : list op) : W := fold_left exec h w.

(** A new process: nothing traced, nothing cached. [b] stands in for objects not made yet. *)
Definition start (b : obj D X) : W :=
  mkWorld 0 (fun _ => b) 0 (fun _ => None) None (fun _ => None) (fun _ => None) (fun _ => None)
    (fun _ _ => None) (fun _ _ => None) (fun _ _ => None).
End Cache.
Arguments out_res {Q}. Arguments out_unguided {Q}. Arguments mkOut {Q}.
Arguments New {D}. Arguments Change {D}. Arguments Clear {D}. Arguments Run {D}.
Arguments Reset {D}. Arguments Reward {D}. Arguments Terminal {D}. Arguments Step {D}.


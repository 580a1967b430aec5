(** * Rollout: mbd/utils.py:18-51. *)
From Verif Require Import Base Params.

Section Rollout.
Context {Q : Type}.
Variable step_env : State Q -> act -> State Q.

(** The inner [step] given to jax.lax.scan and the scan itself: final carry and the
    stacked (reward, pipeline_state, applied_action). *)
Fixpoint scan_us (st : State Q) (us : list act) : State Q * list (R * Q * act) :=
  match us with
  | [] => (st, [])
  | u :: rest =>
      let st' := step_env st u in
      let '(fin, outs) := scan_us st' rest in
      (fin, (st_rew st', st_q st', st_app st') :: outs)
  end.

(** eval_us (utils.py:18-24): rewards only, no warm-up step. *)
Definition eval_us (st : State Q) (us : list act) : list R :=
  map (fun o => fst (fst o)) (snd (scan_us st us)).

(** rollout_us (utils.py:26-34). *)
Definition rollout_us (st : State Q) (us : list act) : list R * list Q * list act :=
  let st_init := step_env st (0, 0) in
  let '(_, outs) := scan_us st_init us in
  (map (fun o => fst (fst o)) outs, map (fun o => snd (fst o)) outs, map snd outs).

(** rollout_us_with_terminal (utils.py:36-51); [terminal] is env.get_terminal_reward and
    [term_w] env.terminal_reward_weight. *)
Definition rollout_us_with_terminal (terminal : Q -> R) (term_w : R) (st : State Q) (us : list act)
  : R * list Q * list act :=
  let st_init := step_env st (0, 0) in
  let '(fin, outs) := scan_us st_init us in
  let rew_seq := map (fun o => fst (fst o)) outs in
  let total := Rmean rew_seq + term_w * terminal (st_q fin) in
  (total, map (fun o => snd (fst o)) outs, map snd outs).

(** Post-processing loop of run_diffusion (mbd_planner.py:555-564): xs[0] = state_init, then
    one step per action. *)
Fixpoint replay (st : State Q) (us : list act) : list Q :=
  match us with
  | [] => []
  | u :: rest => let st' := step_env st u in st_q st' :: replay st' rest
  end.
Definition trajectory_states (st : State Q) (us : list act) : list Q := st_q st :: replay st us.
End Rollout.

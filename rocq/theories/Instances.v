(** * Instances: run_diffusion (Planner.v) applied to each robot class.

    [logpd] stands for eval_xref_logpd with the generated demonstration and [rew_xref] for its
    score (modelled in Demo.v); every theorem about these instances holds for all of them. *)
From Verif Require Import Base Params Geom TT2d Bicycle NTrailer Acc Rollout Planner.

(** run_diffusion with env = TractorTrailer2d started at x0 (mbd_planner.py:189-751). *)
Definition tt_penv (s : tt_self) (x0 : ttq) proj guide (logpd : list ttq -> Z -> R) (rew_xref : R) : penv ttq :=
  {| pe_reset := reset_state x0;
     pe_step := tt_step s proj guide;
     pe_step_viz := tt_step_internal s proj guide true;
     pe_terminal := tt_terminal s;
     pe_term_w := p_term_w (ts_p s); pe_steer_w := p_steer_w (ts_p s); pe_dmax := p_dmax (ts_p s);
     pe_logpd := logpd; pe_rew_xref := rew_xref |}.

(** env = KinematicBicycle2d. *)
Definition bk_penv (s : bk_self) (x0 : bkq) proj guide (logpd : list bkq -> Z -> R) (rew_xref : R) : penv bkq :=
  {| pe_reset := reset_state x0;
     pe_step := bk_step s proj guide;
     pe_step_viz := bk_step_internal s proj guide true;
     pe_terminal := bk_terminal s;
     pe_term_w := p_term_w (bs_p s); pe_steer_w := p_steer_w (bs_p s); pe_dmax := p_dmax (bs_p s);
     pe_logpd := logpd; pe_rew_xref := rew_xref |}.

(** env = NTrailer2d; the assertions of _step_internal are checked by [nt_run]. *)
Definition nt_penv (s : nt_self) (x0 : ntq) guide (logpd : list ntq -> Z -> R) (rew_xref : R) : penv ntq :=
  {| pe_reset := reset_state x0;
     pe_step := nt_step_core s guide false;
     pe_step_viz := nt_step_core s guide true;
     pe_terminal := nt_terminal s;
     pe_term_w := p_term_w (ns_p s); pe_steer_w := p_steer_w (ns_p s); pe_dmax := p_dmax (ns_p s);
     pe_logpd := logpd; pe_rew_xref := rew_xref |}.
(** The assertions (n_trailer2d.py:133-135) are evaluated while tracing the first step; they
    depend only on the shape of the state, which step preserves. *)
Definition nt_run (s : nt_self) (x0 : ntq) guide logpd rew_xref (g : cfg) (rg : prng) : Res (result (Q := ntq)) :=
  if negb (Nat.eqb (length (n_ths x0)) (ns_N s)) then Err AssertionError
  else if p_proj (ns_p s) then Err AssertionError
  else run_diffusion (nt_penv s x0 guide logpd rew_xref) (Some g) rg.

(** env = AccTractorTrailer2d. *)
Definition acc_penv (s : acc_self) (x0 : accq) proj guide (logpd : list accq -> Z -> R) (rew_xref : R) : penv accq :=
  {| pe_reset := reset_state x0;
     pe_step := acc_step s proj guide;
     pe_step_viz := acc_step_internal s proj guide true;
     pe_terminal := acc_terminal s;
     pe_term_w := p_term_w (as_p s); pe_steer_w := p_steer_w (as_p s); pe_dmax := p_dmax (as_p s);
     pe_logpd := logpd; pe_rew_xref := rew_xref |}.

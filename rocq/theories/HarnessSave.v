(** * HarnessSave: the result files of the integration tests (tests/test_planners/test_base.py:65-123, 237-325).

    The result directory maps file names to contents. Not modelled: the text of the JSON file (every value put into it
    is a string, a number, a Boolean, None or a list or dictionary of such values, so encoding does not fail), creating
    the directory (it exists when a test runs), log lines. *)
From Coq Require Import String.
From Verif Require Import Base Params Geom TT2d Acc Rollout Instances EnvModel Setup Stats Config Tune Bench Planner Harness.
Local Open Scope string_scope.
Local Open Scope list_scope.
Open Scope R_scope.

(** result_data (test_base.py:277-299): asdict(config) is represented by the configuration itself. *)
Record result_file : Type := mkResult {
  rf_config : test_config; rf_distance : R; rf_final : list R; rf_timing : timing; rf_stamp : string; rf_commit : string;
  rf_hitch : bool; rf_coll : bool; rf_success : bool;
  rf_tractor : R; rf_trailer : R; rf_tractor_check : R; rf_trailer_check : R; rf_limit : R;
  rf_states : nat; rf_actions : nat }.
(** A file: the JSON result, the two arrays, or one whose writing was interrupted. *)
Inductive content : Type := Result (f : result_file) | Arrays (actions : list act) (states : list (list R)) | Broken.
Definition dir : Type := string -> option content.
Definition write (fs : dir) (name : string) (x : content) : dir := fun m => if String.eqb m name then Some x else fs m.

(** The two file names (test_base.py:303, 308). *)
Definition result_name (test_name : string) : string := (test_name ++ "_result.json")%string.
Definition arrays_name (test_name : string) : string := (test_name ++ "_arrays.npz")%string.

(** get_git_commit (test_base.py:314-325): return code and output of git rev-parse HEAD (the output without the white
    space that strip() removes), None when git cannot be run. *)
Definition get_git_commit (git : option (Z * string)) : string :=
  match git with Some (code, out) => if Z.eqb code 0 then out else "unknown" | None => "unknown" end.

(** What the machine contributes to saving: the time stamp, git's answer, and where writing fails, if it does:
    0, 1 opening and writing the result file, 2, 3 opening and writing the arrays file. *)
Record machine : Type := mkMachine { mc_stamp : string; mc_git : option (Z * string); mc_fail : option (nat * exn) }.

(** compute_final_min_distance (test_base.py:237-256), the two distances. *)
Definition final_distance_of (at_ goal : pt) : R := sqrt ((fst at_ - fst goal) ^ 2 + (snd at_ - snd goal) ^ 2).

Section Test.
(** One test: the two checks, the position and the trailer's rear as functions of a state, the goal, the row of the state
    array, the configuration and what run_diffusion returned. *)
Context {Q : Type} (row : Q -> list R) (coll hitch : Q -> bool) (pos back : Q -> pt) (goal : pt)
  (c : test_config) (actions : list act) (states : list Q) (tm : timing).

(** save_test_results (test_base.py:258-312), called with the distances of compute_final_min_distance. *)
Definition save_test_results (m : machine) (fs : dir) : dir * Res unit :=
  match states with
  | [] => (fs, Err IndexError)
  | q0 :: _ =>
      let final := last states q0 in
      let tractor := final_distance_of (pos final) goal in
      let trailer := final_distance_of (back final) goal in
      let '(hv, oc) := trajectory_violations coll hitch false false states in
      let tractor_chk := pnorm (psub (pos final) goal) in
      let trailer_chk := pnorm (psub (back final) goal) in
      let success := Rleb tractor_chk (tc_limit c) || Rleb trailer_chk (tc_limit c) in
      let data := mkResult c (Rmin tractor trailer) (row final) tm (mc_stamp m) (get_git_commit (mc_git m))
                    hv oc success tractor trailer tractor_chk trailer_chk (tc_limit c) (length states) (length actions) in
      let rn := result_name (tc_name c) in
      let an := arrays_name (tc_name c) in
      let fs1 := write fs rn (Result data) in
      let fs2 := write fs1 an (Arrays actions (map row states)) in
      match mc_fail m with
      | Some (0%nat, e) => (fs, Err e)
      | Some (1%nat, e) => (write fs rn Broken, Err e)
      | Some (2%nat, e) => (fs1, Err e)
      | Some (3%nat, e) => (write fs1 an Broken, Err e)
      | _ => (fs2, Ok tt)
      end
  end.

(** The end of run_mbd_test (test_base.py:84-123): timeout, validation, saving. *)
Definition finish_test (t0 t1 : R) (m : machine) (fs : dir) : dir * outcome :=
  if Rltb (tc_timeout c) (t1 - t0) then (fs, Failed)
  else
    match judge coll hitch pos back goal c actions states with
    | Passed d s =>
        let '(fs', r) := save_test_results m fs in (fs', match r with Ok _ => Passed d s | Err e => Errored e end)
    | o => (fs, o)
    end.
End Test.

(** The rows of the state array. *)
Definition tt_row (q : ttq) : list R := [t_px q; t_py q; t_th1 q; t_th2 q].
Definition acc_row (q : accq) : list R := tt_row (a_q q) ++ [a_v q; a_d q].

(** Everything a run depends on besides its configuration: SciPy's projection, the gradients and the demonstration score
    of the two classes, random numbers, clocks, and the machine. *)
Record inputs : Type := mkIn {
  in_pt : ttq -> act -> act; in_gt : ttq -> ttq; in_lt : list ttq -> Z -> R;
  in_pa : accq -> act -> act; in_ga : accq -> accq; in_la : list accq -> Z -> R;
  in_rx : R; in_rg : prng; in_t0 : R; in_t1 : R; in_clock : nat -> R; in_machine : machine }.

(** run_mbd_test with the files it writes (test_base.py:65-123); see Harness.run_mbd_test for what is represented. *)
Definition run_and_save (c : test_config) (i : inputs) (fs : dir) : dir * outcome :=
  let tm := timing_of (flag (tc_mbd c) "enable_demo") (in_clock i) in
  match create_test_environment c with
  | Err x => (fs, Errored x)
  | Ok r =>
      match tt_of_robot r, acc_of_robot r with
      | Some (s, x0), _ =>
          match run_diffusion (tt_penv s x0 (in_pt i) (in_gt i) (in_lt i) (in_rx i)) (Some (planner_cfg (tc_mbd c))) (in_rg i) with
          | Err x => (fs, Errored x)
          | Ok out =>
              finish_test tt_row (ts_coll s) (ts_hitch s) (fun q => (t_px q, t_py q)) (tt_trailer_back (ts_p s))
                (t_px (ts_xg s), t_py (ts_xg s)) c (o_Y0 out) (o_traj out) tm (in_t0 i) (in_t1 i) (in_machine i) fs
          end
      | None, Some (s, x0) =>
          match run_diffusion (acc_penv s x0 (in_pa i) (in_ga i) (in_la i) (in_rx i)) (Some (planner_cfg (tc_mbd c))) (in_rg i) with
          | Err x => (fs, Errored x)
          | Ok out =>
              finish_test acc_row (fun q => ts_coll (as_t s) (a_q q)) (fun q => ts_hitch (as_t s) (a_q q))
                (fun q => (t_px (a_q q), t_py (a_q q))) (fun q => tt_trailer_back (ts_p (as_t s)) (a_q q))
                (t_px (ts_xg (as_t s)), t_py (ts_xg (as_t s))) c (o_Y0 out) (o_traj out) tm (in_t0 i) (in_t1 i) (in_machine i) fs
          end
      | None, None => (fs, Errored TypeError)
      end
  end.

(** The runner's view of it (Harness.Runner): the process and the machine supply the inputs of each run, and the result
    directory is carried along. *)
Definition saving_run {W : Type} (supply : W -> test_config -> W * inputs) (s : W * dir) (c : test_config) : (W * dir) * bool :=
  let '(w', i) := supply (fst s) c in
  let '(fs', o) := run_and_save c i (snd s) in
  ((w', fs'), match o with Passed _ _ => true | _ => false end).

(** * SpecHarnessSave: vocabulary for the result files of the integration tests. *)
From Coq Require Import String.
From Verif Require Import Base Params TT2d Acc EnvModel Setup Bench Planner Harness HarnessSave.
Local Open Scope string_scope.
Local Open Scope list_scope.
Open Scope R_scope.

(** The two files of the test called n. *)
Definition files_of (n : string) : list string := [(n ++ "_result.json")%string; (n ++ "_arrays.npz")%string].
(** Only the files called l differ between the two directories. *)
Definition only_changes (l : list string) (before after : dir) : Prop := forall m, ~ In m l -> after m = before m.
(** No write to the disk fails. *)
Definition disk_works (m : machine) : Prop := mc_fail m = None.

(** The file tells the truth about one run of configuration c: what was run and when, the distances [near], [rear] of the
    final state to the goal, and the sizes of the arrays. *)
Definition tells (f : result_file) (c : test_config) (m : machine) (final : list R) (near rear : R) (n_states n_actions : nat) : Prop :=
  rf_config f = c /\ rf_final f = final /\ rf_distance f = Rmin near rear /\
  rf_tractor f = near /\ rf_tractor_check f = near /\ rf_trailer f = rear /\ rf_trailer_check f = rear /\
  rf_limit f = tc_limit c /\ rf_states f = n_states /\ rf_actions f = n_actions /\ rf_stamp f = mc_stamp m /\
  (forall out, mc_git m = Some (0%Z, out) -> rf_commit f = out) /\
  ((forall out, mc_git m <> Some (0%Z, out)) -> rf_commit f = "unknown").

(** The tests a test method runs, in order. *)
Definition runs_of (b : test_body) : list test_config :=
  let get r := match r with Ok c => [c] | Err _ => [] end in
  match b with
  | Scenario n => get (get_test_config n)
  | DemoOverride => get (create_demo_variant "parking_basic_forward" true) ++ get (create_demo_variant "parking_basic_forward" false)
  | ListFunctions => []
  end.
(** After a passing run of configuration c with inputs i the directory holds the two files of that run. *)
Definition holds_run (c : test_config) (i : inputs) (fs : dir) : Prop :=
  exists before after d sm f us xs, run_and_save c i before = (after, Passed d sm) /\
    fs (tc_name c ++ "_result.json")%string = Some (Result f) /\ after (tc_name c ++ "_result.json")%string = Some (Result f) /\
    fs (tc_name c ++ "_arrays.npz")%string = Some (Arrays us xs) /\ after (tc_name c ++ "_arrays.npz")%string = Some (Arrays us xs) /\
    rf_config f = c /\ rf_success f = true /\ rf_distance f = d.
(** A session: tests run one after the other in the same result directory (also in several processes, over any time),
    with what each of them passed (true) or not. *)
Fixpoint session {W : Type} (supply : W -> test_config -> W * inputs) (w : W) (fs : dir) (cs : list test_config) : dir * list bool :=
  match cs with
  | [] => (fs, [])
  | c :: rest =>
      let '((w1, fs1), ok) := saving_run supply (w, fs) c in
      let '(fs2, oks) := session supply w1 fs1 rest in (fs2, ok :: oks)
  end.

(** Concrete inputs of a run that takes that many seconds. *)
Definition example_inputs (seconds : R) (fail : option (nat * exn)) : inputs :=
  mkIn (fun _ u => u) (fun q => q) (fun _ _ => 0) (fun _ u => u) (fun q => q) (fun _ _ => 0) 0
    (mkPrng Z (fun z => z) (fun k => (k, k)) (fun _ n h => repeat (repeat (0, 0) h) n)) 0 seconds
    INR (mkMachine "2025-01-01T00:00:00" (Some (0%Z, "abc")) fail).

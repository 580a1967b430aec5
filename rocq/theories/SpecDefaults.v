(** * SpecDefaults: pose vectors per vehicle class. Uses the model's data types only. *)
From Verif Require Import Base Params Setup.
Open Scope R_scope.

(** A pose vector of the given class: position, heading, trailer headings, speed and steering 0. *)
Definition pose_vector (r : robot) (x y th1 th2 : R) : list R :=
  match rb_kind r with
  | KTT => [x; y; th1; th2]
  | KBK => [x; y; th1]
  | KNT => [x; y; th1] ++ repeat th2 (p_num_trailers (rb_p r))
  | KACC => [x; y; th1; th2; 0; 0]
  end.

(** Property C43: elapsed time. *)
From Coq Require Import ZArith Bool Lia.
From Verif Require Import Base TimeModel TimeProofs.
Open Scope Z_scope.

(** C43: for true times [t0 <= t] less than one clock period apart, the computed
    delta is the true one, plus one tick exactly when the clock wrapped in
    between. *)
Theorem C43_elapsed_time : forall w, 2 <= w -> forall t0 t,
  0 <= t0 <= t -> t - t0 < 2 ^ w - 2 ->
  get_delta_millisec w (clock w t) (clock w t0)
  = (t - t0) + (if clock w t <? clock w t0 then 1 else 0).
Proof. exact delta_true. Qed.
Print Assumptions C43_elapsed_time.

(** C43: a clock that steps back by one or two ms yields 1 or 0, not a huge
    value. *)
Theorem C43_step_back : forall w, forall now t1,
  0 <= now -> now < t1 <= now + 2 -> t1 < 2 ^ w -> now + 2 < 2 ^ w ->
  get_delta_millisec w now t1 = now + 2 - t1.
Proof. exact delta_stepback. Qed.
Print Assumptions C43_step_back.

(** C43: a clock that steps back by three ms or more is indistinguishable from
    a wrap: the delta is the whole clock period minus the step (plus one). *)
Theorem C43_step_back_three_is_huge : forall w, 2 <= w -> forall now t1,
  0 <= now -> now + 2 < t1 -> t1 < 2 ^ w ->
  get_delta_millisec w now t1 = (now + 2 ^ w - t1) + 1.
Proof. exact delta_wrap. Qed.
Print Assumptions C43_step_back_three_is_huge.

Example C43_example_wrap :
  get_delta_millisec 32 (clock 32 (2 ^ 32 + 100)) (clock 32 (2 ^ 32 - 400)) = 501.
Proof. vm_compute. reflexivity. Qed.

Example C43_example_stepback : get_delta_millisec 64 1000 1002 = 0 /\
  get_delta_millisec 64 1000 1003 = 2 ^ 64 - 2.
Proof. vm_compute. split; reflexivity. Qed.

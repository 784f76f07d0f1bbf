(** What a camera should do with its output, readiness and results. *)
From Coq Require Import ZArith List Bool QArith.
From Verif Require Import Base FTextModel FloatModel DevModel DevSpec CamModel.
Import ListNotations.
Open Scope Z_scope.

(** Histories are given latest event first. *)

(** The words P_READY_TIME, READY and RESULT. *)
Definition word_time : text := [80; 95; 82; 69; 65; 68; 89; 95; 84; 73; 77; 69].
Definition word_ready : text := [82; 69; 65; 68; 89].
Definition word_result : text := [82; 69; 83; 85; 76; 84].
Definition is (p q : text) : bool := if list_eq_dec Z.eq_dec p q then true else false.

(** Manual mode. *)
Fixpoint by_hand (rh : list cev) : bool :=
  match rh with
  | [] => false
  | CCmd (77 :: _) (DFin _ q) :: h => if Qeq_bool q 0 then false else if Qeq_bool q 1 then true else by_hand h
  | _ :: h => by_hand h
  end.
(** Time of the last evaluation with the signal ready, or of the start. *)
Fixpoint last_ready (t0 : Z) (rh : list cev) : Z :=
  match rh with
  | [] => t0
  | CEval t 1 _ :: _ => t
  | _ :: h => last_ready t0 h
  end.
(** The tolerated time without ready, a [float]. *)
Fixpoint tolerance (b0 : Z) (rh : list cev) : Z :=
  match rh with
  | [] => b0
  | CCmd p v :: h => if is p word_time then as_float v else tolerance b0 h
  | _ :: h => tolerance b0 h
  end.
(** Is the output on?  An evaluation leaves it alone while the camera is ready or was
    ready short enough ago, otherwise it switches it on. *)
Fixpoint lit (t0 b0 : Z) (rh : list cev) : bool :=
  match rh with
  | [] => false
  | CEval t i _ :: h =>
      if i =? 1 then lit t0 b0 h
      else if Qle_bool (f_val (tolerance b0 h)) (inject_Z (t - last_ready t0 h)) then true else lit t0 b0 h
  | COrder o :: h =>
      if by_hand h then lit t0 b0 h
      else match o with OOn => true | OOff | OInstantOff => false | OSetState n => negb (n =? 0) | OSetValue _ => lit t0 b0 h end
  | CCmd (83 :: _) v :: h => match whole_part v with Some n => negb (n =? 0) | None => lit t0 b0 h end
  | _ :: h => lit t0 b0 h
  end.
(** Readiness: by command or by the last evaluation. *)
Fixpoint told_ready (rh : list cev) : bool :=
  match rh with
  | [] => false
  | CEval _ i _ :: _ => 0 <? i
  | CCmd p v :: h =>
      if is p word_ready then match v with DFin _ q => 0 <? Qnum q | DInf s => negb s | DNan => false end else told_ready h
  | _ :: h => told_ready h
  end.
(** Second result at the last evaluation. *)
Fixpoint second (rh : list cev) : Z :=
  match rh with [] => 0 | CEval _ _ r2 :: _ => r2 | _ :: h => second h end.
(** Evaluations in order of time, from [t0] on, before [top]. *)
Fixpoint ordered (t0 top : Z) (h : list cev) : Prop :=
  match h with
  | [] => t0 < top
  | CEval t _ _ :: h' => t0 <= t < top /\ ordered t top h'
  | _ :: h' => ordered t0 top h'
  end.
(** A tolerance that is a number up to 2^24 ms. *)
Definition fine_time (b : Z) : Prop := f_finite b = true /\ (f_val b <= 16777216)%Q.
Definition fine_cmd (e : cev) : Prop :=
  match e with
  | CCmd p v => if is p word_time then fine_time (as_float v) else True
  | _ => True
  end.

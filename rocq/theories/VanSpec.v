(** What an analog valve with IO-Link should send and report. *)
From Coq Require Import ZArith List Bool QArith.
From Verif Require Import Base FTextModel FloatModel DevModel DevSpec VanModel.
Import ListNotations.
Open Scope Z_scope.

(** Histories are given latest event first. *)

(** Is this exactly the word? *)
Definition is (p q : text) : bool := if list_eq_dec Z.eq_dec p q then true else false.
Definition word_m_exp : text := [77; 95; 69; 88; 80].
Definition word_s_dev : text := [83; 95; 68; 69; 86].
Definition begins (p : text) (x : Z) : bool := match p with y :: _ => y =? x | [] => false end.

(** A number of 32 bits in four bytes, highest first. *)
Definition number (l : list Z) : Z := fold_left (fun n b => n * 256 + b) l 0.

(** Has a cycle been done? *)
Definition cycled (rh : list aev) : bool := existsb (fun e => match e with AEval _ => true | _ => false end) rh.
(** Manual mode. *)
Fixpoint by_hand (rh : list aev) : bool :=
  match rh with
  | [] => false
  | ACmd p v :: h =>
      if begins p 77 && negb (is p word_m_exp) then
        match v with DFin _ q => if Qeq_bool q 0 then false else if Qeq_bool q 1 then true else by_hand h | _ => by_hand h end
      else by_hand h
  | _ :: h => by_hand h
  end.
(** The position asked for by an event after [rh], if it asks for one. *)
Definition asks (rh : list aev) (e : aev) : option Z :=
  match e with
  | AEval _ => None
  | AOrder o => if by_hand rh then None
                else match o with OOn => Some 1120403456 | OOff | OInstantOff => Some 0 | OSetValue v => Some v | OSetState _ => None end
  | ACmd p v => if begins p 86 then Some (as_float v) else None
  end.
(** The position sent: the last one asked for after the first cycle ([x0]: before). *)
Fixpoint sent (x0 : Z) (rh : list aev) : Z :=
  match rh with
  | [] => x0
  | e :: h => match asks h e with Some v => if cycled h then v else sent x0 h | None => sent x0 h end
  end.
Definition above (v : dbl) : bool := match v with DFin _ q => 0 <? Qnum q | DInf s => negb s | DNan => false end.
(** The light: the last command for it, and the last one after the first cycle. *)
Fixpoint light (rh : list aev) : bool :=
  match rh with
  | [] => false
  | ACmd p v :: h => if begins p 66 then above v else light h
  | _ :: h => light h
  end.
Fixpoint light_sent (b0 : bool) (rh : list aev) : bool :=
  match rh with
  | [] => b0
  | ACmd p v :: h => if begins p 66 && cycled h then above v else light_sent b0 h
  | _ :: h => light_sent b0 h
  end.
(** The data received last. *)
Fixpoint received (rh : list aev) : option (list Z) :=
  match rh with
  | [] => None
  | AEval (Some d) :: _ => Some d
  | _ :: h => received h
  end.
(** Orders give numbers of 32 bits, data have ten bytes. *)
Definition fits (e : aev) : Prop :=
  match e with
  | AOrder (OSetValue v) => 0 <= v < 2 ^ 32
  | AEval (Some d) => length d = 10%nat
  | _ => True
  end.

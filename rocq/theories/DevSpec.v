(** What commands, names, manual mode and the text of a device should do. *)
From Coq Require Import ZArith List Bool QArith Qabs.
From Verif Require Import Base FTextModel FloatModel DevModel.
Import ListNotations.
Open Scope Z_scope.

(** * Parameters *)

(** Parameter [i] is the first one with name [n]. *)
Definition first_named (ns : list (option text)) (n : text) (i : nat) : Prop :=
  nth_error ns i = Some (Some n) /\ forall j, (j < i)%nat -> nth_error ns j <> Some (Some n).
(** A parameter without name comes before all with name [n]. *)
Definition gap (ns : list (option text)) (n : text) : Prop :=
  exists j, nth_error ns j = Some None /\ forall k, (k < j)%nat -> nth_error ns k <> Some (Some n).
(** The [float] a number is kept as, and the whole number it is cut to. *)
Definition as_float (d : dbl) : Z :=
  match d with
  | DFin s q => f_round s q
  | DInf s => if s then INF + 2 ^ 31 else INF
  | DNan => NAN
  end.
Definition whole_part (d : dbl) : option Z :=
  match d with
  | DFin _ q => let n := Z.quot (Qnum q) (Zpos (Qden q)) in if (- 2147483648 <=? n) && (n <=? 2147483647) then Some n else None
  | _ => None
  end.
(** Value of parameter [i], named [n], in use and kept, after an event. *)
Definition track (i : nat) (n : text) (s : Z * Z) (e : ev) : Z * Z :=
  match e with
  | ECmd p v => if list_eq_dec Z.eq_dec p n then (as_float v, as_float v) else s
  | EPar idx off v => if (off + idx) mod 2 ^ 32 =? Z.of_nat i + 1 then (v, snd s) else s
  | ERestart => (snd s, snd s)
  | _ => s
  end.
(** The first acceptable name given to parameter [i]. *)
Fixpoint first_name (i : nat) (h : list ev) : option text :=
  match h with
  | [] => None
  | EName idx off n :: h' =>
      if ((off + idx) mod 2 ^ 32 =? Z.of_nat i + 1) && (Z.of_nat (length n) <=? 25) then Some n else first_name i h'
  | _ :: h' => first_name i h'
  end.

(** * Manual mode *)

Definition manual_after (h : list ev) : bool :=
  fold_left (fun b e => match e with
                        | ECmd (77 :: _) (DFin _ q) => if Qeq_bool q 0 then false else if Qeq_bool q 1 then true else b
                        | ERestart => false
                        | _ => b
                        end) h false.
(** What an event makes of the state and of the value; [m]: manual mode is on.  Orders of
    the program count only without manual mode. *)
Definition new_state (m : bool) (e : ev) : option Z :=
  match e with
  | EOrder o => if m then None else match o with OOn => Some 1 | OOff | OInstantOff => Some 0 | OSetState n => Some n | OSetValue _ => None end
  | ECmd (83 :: _) v => whole_part v
  | ERestart => Some 0
  | _ => None
  end.
Definition new_value (m : bool) (e : ev) : option Z :=
  match e with
  | EOrder o => if m then None else match o with OOff | OInstantOff => Some 0 | OSetValue v => Some v | _ => None end
  | ECmd (86 :: _) v => Some (as_float v)
  | ERestart => Some 0
  | _ => None
  end.
(** [x] is what the last event of [h] with an effect made, or 0 without such an event. *)
Definition last_effect (f : bool -> ev -> option Z) (h : list ev) (x : Z) : Prop :=
  (x = 0 /\ forall a e b, h = a ++ e :: b -> f (manual_after a) e = None) \/
  exists a e b, h = a ++ e :: b /\ f (manual_after a) e = Some x /\
    forall b1 e' b2, b = b1 ++ e' :: b2 -> f (manual_after (a ++ e :: b1)) e' = None.

(** * Reading of the text *)

(** Before and after the first [c]. *)
Fixpoint cut_at (c : Z) (l : text) : option (text * text) :=
  match l with
  | [] => None
  | x :: l' => if x =? c then Some ([], l') else match cut_at c l' with Some (a, b) => Some (x :: a, b) | None => None end
  end.
(** key=value, key=value}, and the end of the line. *)
Fixpoint read_fields (fuel : nat) (l : text) : option (list (text * text)) :=
  match fuel with
  | O => None
  | S f =>
      match cut_at 61 l with
      | None => None
      | Some (k, r) =>
          match cut_at 44 r with
          | None => None
          | Some (v, r') =>
              match r' with
              | [10] => match cut_at 125 v with Some (v', []) => Some [(k, v')] | _ => None end
              | 32 :: r2 => match read_fields f r2 with Some fs => Some ((k, v) :: fs) | None => None end
              | _ => None
              end
          end
      end
  end.
Fixpoint drop_blank (l : text) : text := match l with c :: l' => if (c =? 9) || (c =? 32) then drop_blank l' else l | [] => [] end.
(** name={fields},  *)
Definition read_device (l : text) : option (text * list (text * text)) :=
  match cut_at 61 (drop_blank l) with
  | Some (n, 123 :: r) => match read_fields (length r) r with Some fs => Some (n, fs) | None => None end
  | _ => None
  end.
(** The number a text stands for. *)
Definition dec_value (l : text) : Z := fold_left (fun a c => a * 10 + (c - 48)) l 0.
Definition all_digits (l : text) : bool := forallb (fun c => (48 <=? c) && (c <=? 57)) l.
Definition natural (l : text) : option Z := match l with [] => None | _ => if all_digits l then Some (dec_value l) else None end.
Definition positive (l : text) : option Q :=
  match cut_at 46 l with
  | None => match natural l with Some n => Some (inject_Z n) | None => None end
  | Some (a, b) => match natural a, natural b with
                   | Some x, Some y => Some (inject_Z x + inject_Z y / inject_Z (10 ^ Z.of_nat (length b)))%Q
                   | _, _ => None
                   end
  end.
Definition number (l : text) : option Q :=
  match l with 45 :: r => match positive r with Some q => Some (- q)%Q | None => None end | _ => positive l end.

(** What a field should tell. *)
Inductive cell := CInt (z : Z) | CFloat (b : Z).
Definition is_whole (q : Q) : Prop := exists z, (q == inject_Z z)%Q.
Definition tells (t : text) (c : cell) : Prop :=
  match c with
  | CInt z => exists q, number t = Some q /\ (q == inject_Z z)%Q
  | CFloat b =>
      if f_finite b then exists q, number t = Some q /\ (Qabs (q - f_val b) <= 1 # 200)%Q /\ (is_whole (f_val b) -> (q == f_val b)%Q)
      else number t = None
  end.
(** The fields of a device. *)
Fixpoint par_cells (ns : list (option text)) (vs : list Z) : list (text * cell) :=
  match ns, vs with
  | Some n :: ns', v :: vs' => (n, CFloat v) :: par_cells ns' vs'
  | None :: ns', _ :: vs' => par_cells ns' vs'
  | _, _ => []
  end.
(** Device types, base.h 382-412: only signals have no value, only analog outputs no state. *)
Definition state_shown (ty : Z) : Prop := ty <> 16.
Definition value_shown (ty sub : Z) : Prop := ~ In ty [0; 5; 6; 10; 11; 12; 13; 14] /\ ~ (ty = 3 /\ (sub = 1 \/ sub = 2)).
Definition cells_of (d : dev) (l : list (text * cell)) : Prop :=
  exists st va, l = ([77], CInt (if manual d then 1 else 0)) :: st ++ va ++ par_cells (names d) (vals d) /\
    (state_shown (dtype d) /\ st = [([83; 84], CInt (state d))] \/ ~ state_shown (dtype d) /\ st = []) /\
    (value_shown (dtype d) (subtype d) /\ va = [([86], CFloat (value d))] \/ ~ value_shown (dtype d) (subtype d) /\ va = []).
(** Names without the characters of the syntax. *)
Definition plain (n : text) : Prop := Forall (fun c => c <> 61 /\ c <> 44 /\ c <> 125 /\ c <> 9 /\ c <> 32 /\ c <> 10) n.
Definition plain_names (d : dev) : Prop := plain (dname d) /\ forall n, In (Some n) (names d) -> plain n.
Definition blank (p : text) : Prop := Forall (fun c => c = 9 \/ c = 32) p.

(** * Devices that can occur *)

Definition reachable (d : dev) : Prop :=
  exists ty sub nm mem d0 h l, create ty sub nm mem = Some d0 /\ run d0 h = Some (d, l).
(** Where the behaviour of an event is undefined. *)
Definition bad (d : dev) (e : ev) : Prop :=
  match e with
  | ECmd (83 :: _) v => whole_part v = None
  | ECmd (80 :: p) _ => gap (names d) (80 :: p)
  | _ => False
  end.

(** * Sending a text back *)

(** A [double] read from a text. *)
Definition parsed (t : text) (v : dbl) : Prop :=
  exists s q x, number t = Some q /\ v = DFin s x /\ (Qabs (x - q) <= Qabs q * (1 # 9007199254740992))%Q /\
    (forall b, f_finite b = true -> (f_val b == q)%Q -> (x == q)%Q).
(** Commands for the fields that begin with P. *)
Inductive replay : list (text * text) -> list ev -> Prop :=
| R0 : replay [] []
| R1 k t fs v h : parsed t v -> replay fs h -> replay ((80 :: k, t) :: fs) (ECmd (80 :: k) v :: h)
| R2 k t fs h : hd 0 k <> 80 -> replay fs h -> replay ((k, t) :: fs) h.
(** All parameters have names that begin with P, all different. *)
Definition command_names (ns : list (option text)) : Prop := Forall (fun o => exists k, o = Some (80 :: k)) ns /\ NoDup ns.
(** [y] is near to [b]; the same if [b] is whole. *)
Definition near (b y : Z) : Prop :=
  f_finite y = true /\ (is_whole (f_val b) -> (f_val y == f_val b)%Q) /\
  (Qabs (f_val y - f_val b) <= (1 # 200) + (Qabs (f_val b) + 1) * (1 # 8388608))%Q.

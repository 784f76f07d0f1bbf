(** Washing statistics.  Source: /repo/PAC/common/cip_stats.{h,cpp} and the places
    of /repo/PAC/common/cip_tech_def.cpp that change them. *)
From Coq Require Import ZArith List Bool.
From Verif Require Import Base FTextModel.
Import ListNotations.
Open Scope Z_scope.

(** cip_stats.h:10-11, mcaRec.h:17: [MAX_ID_LENGTH], [MAX_FIELD_LENGTH] times
    [UNICODE_MULTIPLIER]. *)
Definition ID_SIZE : Z := 32 * 3.
Definition FIELD_SIZE : Z := 24 * 3.

(** cip_stats.h:30-47 [cip_object_stats]; texts are the characters before the
    terminating zero.  The flag [changed] of a record is never read. *)
Record rec := { r_n : Z; r_id : list Z; r_wash : list Z; r_prog : list Z; r_acid : list Z }.

(** cip_stats.cpp:13-15, the texts in UTF-8. *)
Definition UNKNOWN : list Z :=
  [208;157;208;181;32;208;184;208;183;208;178;208;181;209;129;209;130;208;189;208;190].
Definition UNDEFINED : list Z :=
  [208;157;208;181;32;208;190;208;191;209;128;208;181;208;180;208;181;208;187;208;181;208;189;208;190].

Definition new_rec (id : list Z) : rec :=
  {| r_n := 0; r_id := id; r_wash := UNKNOWN; r_prog := UNDEFINED; r_acid := UNKNOWN |}.

(** * Writing *)

(** One text, cip_stats.cpp:28-30. *)
Definition put_text (t : list Z) : list Z :=
  35 :: show_int (Z.of_nat (length t)) ++ 35 :: t.

(** cip_stats.cpp:24-41 [cip_object_stats::serialize]. *)
Definition put_rec (r : rec) : list Z :=
  show_int (r_n r) ++ put_text (r_id r) ++ put_text (r_wash r) ++ put_text (r_prog r) ++
  put_text (r_acid r) ++ [10].

(** cip_stats.cpp:129-137 [cip_stats::serialize]; [obj_stats.size()] is below
    2^31 (otherwise memory is exhausted). *)
Definition put_all (l : list (list Z * rec)) : list Z :=
  show_int (Z.of_nat (length l)) ++ 10 :: concat (map (fun p => put_rec (snd p)) l).

(** * Reading *)

(** [stream >> comma] for a [char]: white space is skipped; the character is not
    used. *)
Definition get_char (s : stream) : stream :=
  if good s then
    match skip_ws (left s) with
    | [] => {| left := []; fail := true; eof := true |}
    | _ :: r => {| left := r; fail := false; eof := false |}
    end
  else failed s.

(** A text buffer: the bytes written so far, [None] for a byte never written. *)
Definition buffer := list (option Z).
Definition fresh (size : Z) (t : list Z) : buffer :=
  map Some t ++ Some 0 :: repeat None (Z.to_nat size - length t - 1).

(** The text in a buffer as strlen and strcpy see it; [None] when a byte never
    written or the end of the buffer comes before a zero. *)
Fixpoint c_str (b : buffer) : option (list Z) :=
  match b with
  | [] => None
  | None :: _ => None
  | Some c :: r => if c =? 0 then Some [] else option_map (cons c) (c_str r)
  end.

Fixpoint put_at (b : buffer) (i : nat) (c : Z) : buffer :=
  match b, i with
  | [], _ => []
  | _ :: r, O => Some c :: r
  | x :: r, S j => x :: put_at r j c
  end.

(** [stream.read( buf, n )] into a buffer: [None] when more bytes arrive than the
    buffer has. *)
Definition read_bytes (b : buffer) (n : Z) (s : stream) : option (buffer * stream) :=
  if good s then
    let t := firstn (Z.to_nat n) (left s) in
    if (length b <? length t)%nat then None
    else
      let short := negb (Z.of_nat (length t) =? n) in
      Some (map Some t ++ skipn (length t) b,
            {| left := skipn (length t) (left s); fail := short; eof := short |})
  else Some (b, failed s).

(** [stream >> comma >> sl >> comma; stream.read( buf, sl ); if ( ... ) buf[ sl ] =
    0;] cip_stats.cpp:48-52 and its repetitions.  [sl] is [None] before its first
    assignment, and using it then is undefined. *)
Definition get_text (b : buffer) (sl : option Z) (s : stream)
  : option (buffer * option Z * stream) :=
  let s1 := get_char s in
  let '(v, s2) := get_int s1 in
  let sl' := match v with Some n => Some n | None => sl end in
  let s3 := get_char s2 in
  match sl' with
  | None => None
  | Some n =>
      match read_bytes b n s3 with
      | None => None
      | Some (b', s4) =>
          Some (if (0 <=? n) && (n <? Z.of_nat (length b))
                then put_at b' (Z.to_nat n) 0 else b', sl', s4)
      end
  end.

(** cip_stats.cpp:43-71 [cip_object_stats::deserialize] of an object made by the
    constructor with the name tmp, lines 145-148; the texts are taken as C
    strings afterwards. *)
Definition get_rec (s : stream) : option (rec * stream) :=
  let '(v, s0) := get_int s in
  let n := match v with Some n => n | None => 0 end in
  match get_text (fresh ID_SIZE [116; 109; 112]) None s0 with
  | None => None
  | Some (b1, sl1, s1) =>
  match get_text (fresh FIELD_SIZE UNKNOWN) sl1 s1 with
  | None => None
  | Some (b2, sl2, s2) =>
  match get_text (fresh FIELD_SIZE UNDEFINED) sl2 s2 with
  | None => None
  | Some (b3, sl3, s3) =>
  match get_text (fresh FIELD_SIZE UNKNOWN) sl3 s3 with
  | None => None
  | Some (b4, _, s4) =>
      match c_str b1, c_str b2, c_str b3, c_str b4 with
      | Some t1, Some t2, Some t3, Some t4 =>
          Some ({| r_n := n; r_id := t1; r_wash := t2; r_prog := t3; r_acid := t4 |}, s4)
      | _, _, _, _ => None
      end
  end end end end.

(** cip_stats.h:24-30 [cmp_str]: strcmp on unsigned bytes. *)
Fixpoint text_cmp (a b : list Z) : comparison :=
  match a, b with
  | [], [] => Eq
  | [], _ => Lt
  | _, [] => Gt
  | x :: a', y :: b' => match x ?= y with Eq => text_cmp a' b' | c => c end
  end.

(** [obj_stats.emplace]: the map in order of keys; an existing key is kept. *)
Fixpoint emplace (k : list Z) (r : rec) (l : list (list Z * rec)) : list (list Z * rec) :=
  match l with
  | [] => [(k, r)]
  | (k', r') :: l' =>
      match text_cmp k k' with
      | Lt => (k, r) :: l
      | Eq => l
      | Gt => (k', r') :: emplace k r l'
      end
  end.

(** The loop cip_stats.cpp:144-151. *)
Fixpoint get_recs (n : nat) (acc : list (list Z * rec)) (s : stream)
  : option (list (list Z * rec)) :=
  match n with
  | O => Some acc
  | S n' =>
      match get_rec s with
      | None => None
      | Some (r, s') => get_recs n' (emplace (r_id r) r acc) s'
      end
  end.

(** cip_stats.cpp:139-152 [cip_stats::deserialize]: [reccount] is not initialised. *)
Definition get_all (text : list Z) : option (list (list Z * rec)) :=
  match get_int (open_in text) with
  | (None, _) => None
  | (Some n, s) => get_recs (Z.to_nat n) [] s
  end.

(** * The base *)

(** cip_stats.h: [obj_stats], [changed]; the contents of the file, if any. *)
Record base := { b_recs : list (list Z * rec); b_changed : bool; b_file : option (list Z) }.

Definition base_init : base := {| b_recs := []; b_changed := false; b_file := None |}.

Fixpoint lookup (k : list Z) (l : list (list Z * rec)) : option rec :=
  match l with
  | [] => None
  | (k', r) :: l' => match text_cmp k k' with Eq => Some r | _ => lookup k l' end
  end.

Fixpoint change (k : list Z) (f : rec -> rec) (l : list (list Z * rec)) : list (list Z * rec) :=
  match l with
  | [] => []
  | (k', r) :: l' => match text_cmp k k' with Eq => (k', f r) :: l' | _ => (k', r) :: change k f l' end
  end.

(** What happens: a line selects an object, cip_tech_def.cpp:1709, 1900
    ([get_obj_stats]); the end of circulation of caustic, 5536-5540, and acid,
    5541-5546, with the date of that moment; the end of a program, 2910-2916 (the
    last argument tells whether it was not reset, so that [apply] is called); an
    evaluation, 723 (the argument tells whether the file could be opened); a start
    of the controller or a reload, 103-107, 2017-2018. *)
Inductive sev :=
| SSelect (id : list Z)
| SCaustic (id : list Z)
| SAcid (id : list Z) (date : list Z)
| SEnd (id : list Z) (prog date : list Z) (apply : bool)
| SEval (ok : bool)
| SRestart.

(** strcpy and sprintf into a buffer of [size] bytes. *)
Definition fits (size : Z) (t : list Z) : bool := Z.of_nat (length t) <? size.

Definition with_recs (b : base) (l : list (list Z * rec)) : base :=
  {| b_recs := l; b_changed := b_changed b; b_file := b_file b |}.

Definition stat_step (b : base) (e : sev) : option base :=
  match e with
  | SSelect id => (* cip_stats.cpp:84-99 *)
      match lookup id (b_recs b) with
      | Some _ => Some b
      | None => if fits ID_SIZE id then Some (with_recs b (emplace id (new_rec id) (b_recs b))) else None
      end
  | SCaustic id =>
      match lookup id (b_recs b) with
      | None => Some b
      | Some r =>
          if r_n r =? 2 ^ 31 - 1 then None
          else Some (with_recs b (change id (fun r =>
                 {| r_n := r_n r + 1; r_id := r_id r; r_wash := r_wash r; r_prog := r_prog r;
                    r_acid := r_acid r |}) (b_recs b)))
      end
  | SAcid id date =>
      if fits FIELD_SIZE date then
        Some (with_recs b (change id (fun r =>
          {| r_n := 0; r_id := r_id r; r_wash := r_wash r; r_prog := r_prog r;
             r_acid := date |}) (b_recs b)))
      else None
  | SEnd id prog date apply =>
      if fits FIELD_SIZE prog && fits FIELD_SIZE date then
        Some {| b_recs := change id (fun r =>
                  {| r_n := r_n r; r_id := r_id r; r_wash := date; r_prog := prog;
                     r_acid := r_acid r |}) (b_recs b);
                b_changed := b_changed b || apply; b_file := b_file b |}
      else None
  | SEval ok => (* cip_stats.cpp:200-207, 171-186: the result of opening is not asked *)
      if b_changed b then
        Some {| b_recs := b_recs b; b_changed := false;
                b_file := if ok then Some (put_all (b_recs b)) else b_file b |}
      else Some b
  | SRestart => (* cip_stats.cpp:155-169 *)
      match b_file b with
      | None => Some {| b_recs := []; b_changed := false; b_file := None |}
      | Some t =>
          match get_all t with
          | None => None
          | Some l => Some {| b_recs := l; b_changed := false; b_file := Some t |}
          end
      end
  end.

Fixpoint stat_run (b : base) (h : list sev) : option base :=
  match h with
  | [] => Some b
  | e :: h' => match stat_step b e with None => None | Some b' => stat_run b' h' end
  end.

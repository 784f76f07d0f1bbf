(** The recipes of a washing line.  Source: /repo/PAC/common/mcaRec.cpp (cpp) and mcaRec.h (h); the calls
    are made in /repo/PAC/common/cip_tech_def.cpp.
    Names are kept in Windows-1251 (24 bytes), edited in UTF-8; values are floats (bit patterns). Memory is
    a function from addresses to bytes; [None] stands for an access outside an array or to bytes that
    were never written. Bytes that are copied without having been written come from [jb], the upper half
    of a 64-bit [unsigned long] that is not written from [hi]. *)
From Coq Require Import ZArith List Bool Lia.
From Verif Require Import Base TimeModel UtfModel RecModel.
Import ListNotations.
Open Scope Z_scope.

(** Sizes, cpp:17-23, 34, h:17-21: 25 recipes of 4 blocks of 128 bytes. *)
Definition NREC : Z := 25.
Definition SIZE : Z := 512.
Definition NLEN : Z := 24.
Definition OFFSET : Z := 32.
Definition TOTAL : Z := NREC * SIZE.
(** [currentRecipeName], [recipeList], cpp:38-39. *)
Definition NCAP : Z := NLEN * 3.
Definition LCAP : Z := (NLEN * 3 + 12) * NREC.

(** A manager with the file of its recipes; [buf] is the buffer for copies shared by all lines,
    h:152-186. [name] is [currentRecipeName] up to its terminating zero, [None] if it has none. *)
Record mgr := { mem : Z -> Z; cur : Z; name : option (list Z); dirty : bool; chk : Z; syn : Z;
                file : Z -> Z; buf : option (Z -> Z); txt : list Z }.
Record junk := { jb : Z -> Z; hi : Z }.

Definition set_mem (m : Z -> Z) (s : mgr) : mgr := {| mem := m; cur := cur s; name := name s; dirty := dirty s; chk := chk s; syn := syn s; file := file s; buf := buf s; txt := txt s |}.
Definition set_cur (r : Z) (s : mgr) : mgr := {| mem := mem s; cur := r; name := name s; dirty := dirty s; chk := chk s; syn := syn s; file := file s; buf := buf s; txt := txt s |}.
Definition set_name (n : option (list Z)) (s : mgr) : mgr := {| mem := mem s; cur := cur s; name := n; dirty := dirty s; chk := chk s; syn := syn s; file := file s; buf := buf s; txt := txt s |}.
Definition set_dirty (d : bool) (t : Z) (s : mgr) : mgr := {| mem := mem s; cur := cur s; name := name s; dirty := d; chk := t; syn := syn s; file := file s; buf := buf s; txt := txt s |}.
Definition set_syn (t : Z) (s : mgr) : mgr := {| mem := mem s; cur := cur s; name := name s; dirty := dirty s; chk := chk s; syn := t; file := file s; buf := buf s; txt := txt s |}.
Definition set_file (f : Z -> Z) (s : mgr) : mgr := {| mem := mem s; cur := cur s; name := name s; dirty := dirty s; chk := chk s; syn := syn s; file := f; buf := buf s; txt := txt s |}.
Definition set_buf (b : option (Z -> Z)) (s : mgr) : mgr := {| mem := mem s; cur := cur s; name := name s; dirty := dirty s; chk := chk s; syn := syn s; file := file s; buf := b; txt := txt s |}.
Definition set_txt (l : list Z) (s : mgr) : mgr := {| mem := mem s; cur := cur s; name := name s; dirty := dirty s; chk := chk s; syn := syn s; file := file s; buf := buf s; txt := l |}.

Definition inside (a n : Z) : bool := (0 <=? a) && (a + n <=? TOTAL).
(** [memcpy] of [n] bytes to address [a]. *)
Definition copy_in (m : Z -> Z) (a n : Z) (f : Z -> Z) : Z -> Z :=
  fun x => if (a <=? x) && (x <? a + n) then f (x - a) else m x.
Definition byte_of (v k : Z) : Z := (v / 256 ^ k) mod 256.
Definition word (f : Z -> Z) : Z := f 0 + 256 * f 1 + 65536 * f 2 + 16777216 * f 3.

(** [startAddr], cpp:141-144, with the offset of a value, cpp:149. *)
Definition start (r : Z) : Z := r * SIZE.
Definition at_val (r v : Z) : Z := start r + OFFSET + 4 * v.

(** [getRecipeValue], cpp:146-158; [w]: bits of an [unsigned long]. The bits of -1000 are 0xC47A0000. *)
Definition get (w : Z) (j : junk) (m : Z -> Z) (r v : Z) : option Z :=
  if inside (at_val r v) 4 then
    let x := word (fun k => m (at_val r v + k)) in
    Some (if (x =? 0xFFFFFFFF) && ((w =? 32) || (hi j =? 0)) then 0xC47A0000 else x)
  else None.
(** [setRecipeValue], cpp:160-166. *)
Definition set (now r v x : Z) (s : mgr) : option mgr :=
  if inside (at_val r v) 4 then Some (set_dirty true now (set_mem (copy_in (mem s) (at_val r v) 4 (byte_of x)) s)) else None.

(** The bytes of a string: [out], then a zero or what happened to be there. *)
Definition padded (out : list Z) (closed : bool) (j : junk) (k : Z) : Z :=
  if k <? Z.of_nat (length out) then nth (Z.to_nat k) out 0
  else if closed && (k =? Z.of_nat (length out)) then 0 else jb j k.
(** [SaveRecipeName] and [WriteMem] of a string, cpp:190-196, 566-582: the temporary array has 25 bytes. *)
Definition save_name (j : junk) (s : mgr) : option mgr :=
  match name s with
  | None => None
  | Some t =>
      match utf8_to_1251 t (Z.of_nat (length t)) with
      | Overread => None
      | Done out => if Z.of_nat (length out) + 1 <=? NLEN + 1 then Some (set_mem (copy_in (mem s) (start (cur s)) NLEN (padded out true j)) s) else None
      | Refused out => if Z.of_nat (length out) <=? NLEN + 1 then Some (set_mem (copy_in (mem s) (start (cur s)) NLEN (padded out false j)) s) else None
      end
  end.
(** The bytes before the first zero among the next [n]; [None] if there is none. *)
Fixpoint c_string (f : Z -> Z) (n : nat) : option (list Z) :=
  match n with
  | O => None
  | S k => if f 0 =? 0 then Some [] else match c_string (fun x => f (x + 1)) k with Some l => Some (f 0 :: l) | None => None end
  end.
(** [ReadMem] of a string, cpp:548-564: only [NLEN] bytes of the temporary array are written. The result
    goes to an array of [NCAP] bytes. *)
Definition read_name (m : Z -> Z) (r : Z) : option (list Z) :=
  if inside (start r) NLEN then
    match c_string (fun k => m (start r + k)) (Z.to_nat NLEN) with
    | Some l => let t := win1251_to_utf8 l in if Z.of_nat (length t) + 1 <=? NCAP then Some t else None
    | None => None
    end
  else None.
(** [LoadRecipeName], cpp:381-384. *)
Definition load_name (s : mgr) : option mgr :=
  match read_name (mem s) (cur s) with Some t => Some (set_name (Some t) s) | None => None end.

(** A float that is not zero. *)
Definition nonzero (b : Z) : bool := negb ((b =? 0) || (b =? 0x80000000)).
(** [%d] of a small number. *)
Definition decimal (n : Z) : list Z := (if n <? 10 then [] else [48 + n / 10]) ++ [48 + n mod 10].
(** [FormRecipeList], cpp:366-379: [n] recipes from number [i] on. *)
Fixpoint list_from (w : Z) (j : junk) (m : Z -> Z) (i : Z) (n : nat) : option (list Z) :=
  match n with
  | O => Some []
  | S k =>
      match get w j m i 0, list_from w j m (i + 1) k with
      | Some v, Some rest =>
          if nonzero v then
            match read_name m i with
            | Some t => Some (decimal (i + 1) ++ [35; 35] ++ t ++ [124; 124] ++ rest)
            | None => None
            end
          else Some rest
      | _, _ => None
      end
  end.
Definition form_list (w : Z) (j : junk) (s : mgr) : option mgr :=
  match list_from w j (mem s) 0 (Z.to_nat NREC) with
  | Some l => if Z.of_nat (length l) + 1 <=? LCAP then Some (set_txt l s) else None
  | None => None
  end.

(** Defaults: number and value, cpp:245-357 (the last loop is 354-357). *)
Definition defaults : list (Z * Z) :=
  [(0,0); (1,0); (2,0x43480000); (3,0x43480000); (4,0x3f800000); (5,0x41700000); (6,0); (7,0x41200000);
   (8,0x41f00000); (9,0x41f00000); (10,0x41f00000); (11,0x40a00000); (12,0x42a00000); (13,0x428c0000);
   (14,0x42b40000); (15,0x42700000); (16,0x43480000); (17,0x43480000); (18,0x43480000); (19,0x43480000);
   (20,0x42200000); (21,0x41700000); (22,0x41f00000); (23,0x43960000); (24,0x44160000); (25,0x44160000);
   (26,0x43fa0000); (27,0x43fa0000); (28,0x44160000); (29,0x44160000); (30,0x42f00000); (31,0); (32,0);
   (33,0); (34,0); (35,0); (36,0x40a00000); (37,0x44160000); (38,0x41f00000); (39,0x43fa0000);
   (40,0x41f00000); (41,0x41000000); (42,0x41700000); (43,0x40000000); (44,0x41a00000); (45,0x41a00000);
   (46,0x41a00000); (47,0x42be0000); (48,0x40000000); (49,0x41f00000); (50,0x3e4ccccd); (51,0x43fa0000);
   (52,0x43020000); (53,0); (54,0x41f00000); (55,0); (56,0x41f00000); (57,0); (58,0x41700000);
   (59,0x3f000000); (60,0x41200000); (61,0x3dcccccd); (62,0x447a0000); (63,0x42200000); (64,0);
   (65,0x40000000); (66,0); (67,0x41700000); (68,0); (69,0x43960000); (70,0); (71,0); (72,0); (73,0); (74,0);
   (75,0); (76,0); (77,0); (78,0); (79,0); (80,0); (81,0); (83,0); (84,0); (85,0); (86,0); (87,0); (88,0);
   (89,0); (90,0); (91,0); (92,0); (93,0); (94,0); (95,0); (96,0); (97,0); (98,0); (99,0); (100,0); (101,0);
   (102,0); (103,0); (104,0); (105,0); (106,0); (107,0); (108,0); (109,0); (110,0); (111,0); (112,0);
   (113,0); (114,0); (115,0); (116,0); (117,0); (118,0); (119,0)].
(** [ResetRecipeToDefaults], cpp:241-364. *)
Definition reset (now : Z) (s : mgr) : option mgr :=
  fold_left (fun o vx => match o with Some x => set now (cur s) (fst vx) (snd vx) x | None => None end) defaults (Some s).
(** [CopyRecipe], [PasteRecipe], [NullifyRecipe], cpp:519-546. *)
Definition copy_recipe (s : mgr) : mgr := set_buf (Some (fun k => mem s (start (cur s) + k))) s.
Definition paste_recipe (s : mgr) : option mgr :=
  match buf s with
  | Some b => load_name (set_mem (copy_in (mem s) (start (cur s)) SIZE b) s)
  | None => Some s
  end.
Definition nullify (s : mgr) : option mgr :=
  load_name (set_mem (copy_in (mem s) (start (cur s)) SIZE (fun _ => 0)) s).

(** [EvalRecipe], cpp:95-134: the three parts. [getValue(RV_TO_DEFAULTS != 0)] reads value 1. *)
Definition tick_name (w now : Z) (j : junk) (s : mgr) : option mgr :=
  if 10000 <? get_delta_millisec w now (syn s) then
    match save_name j (set_syn now s) with Some s1 => form_list w j s1 | None => None end
  else Some s.
Definition tick_file (w now : Z) (s : mgr) : mgr :=
  if 30000 <? get_delta_millisec w now (chk s) then
    let s1 := if dirty s then set_file (mem s) (set_dirty false (chk s) s) else s in set_dirty (dirty s1) now s1
  else s.
Definition tick_order (w now : Z) (j : junk) (s : mgr) : option mgr :=
  match get w j (mem s) (cur s) 1 with
  | None => None
  | Some v =>
      if nonzero v then
        match to_int v with
        | None => None
        | Some n =>
            match (if n =? 1 then reset now s else if n =? 2 then Some (copy_recipe s)
                   else if n =? 3 then paste_recipe s else if n =? 4 then nullify s else Some s) with
            | Some s1 => set now (cur s1) 1 0 s1
            | None => None
            end
        end
      else Some s
  end.
Definition tick (w now : Z) (j : junk) (s : mgr) : option mgr :=
  match tick_name w now j s with Some s1 => tick_order w now j (tick_file w now s1) | None => None end.

(** [ToRecipe], cpp:386-400; [NextRecipe] and [PrevRecipe] (63-93) are the same for the neighbours. *)
Definition go_to (j : junk) (r : Z) (s : mgr) : option mgr :=
  if (0 <=? r) && (r <? NREC) then
    match save_name j s with Some s1 => load_name (set_cur r s1) | None => None end
  else Some s.

(** cip_tech_def.cpp:607-619 [set_cmd] "CUR_REC": [strncpy] of at most [NCAP] bytes. *)
Definition rename (t : list Z) (s : mgr) : mgr :=
  if utf8_strlen t <? NLEN then set_name (if Z.of_nat (length t) <? NCAP then Some t else None) s else s.
(** cip_tech_def.cpp:540-544 [set_cmd] "REC_PAR". *)
Definition edit (now idx x : Z) (s : mgr) : option mgr := set now (cur s) (idx - 1) x s.

(** The constructor, cpp:27-45 with [LoadFromFile] (615-633; a missing part of the file is zero). *)
Definition boot (w now : Z) (j : junk) (f : Z -> Z) (b : option (Z -> Z)) : option mgr :=
  match load_name {| mem := f; cur := 0; name := Some []; dirty := false; chk := now; syn := now; file := f; buf := b; txt := [] |} with
  | Some s => form_list w j s
  | None => None
  end.
(** The destructor, cpp:47-61: what [SaveToFile] (584-613) writes. *)
Definition shut (j : junk) (s : mgr) : option (Z -> Z) :=
  match save_name j s with Some s1 => Some (mem s1) | None => None end.
(** cip_tech_def.cpp:2000-2003, the recipes are read from the file again. *)
Definition reload (s : mgr) : option mgr := load_name (set_mem (file s) s).

(** Events: a new name, a new value, another recipe is chosen for editing, an evaluation, the recipes are
    read again, another line fills the buffer for copies. *)
Inductive ev := Rename (t : list Z) | Edit (now idx x : Z) | Go (r : Z) | Tick (now : Z) | Reload | Other (b : Z -> Z).
Definition step (w : Z) (s : mgr) (e : ev * junk) : option mgr :=
  match fst e with
  | Rename t => Some (rename t s)
  | Edit now idx x => edit now idx x s
  | Go r => go_to (snd e) r s
  | Tick now => tick w now (snd e) s
  | Reload => reload s
  | Other b => Some (set_buf (Some b) s)
  end.
Fixpoint run (w : Z) (s : mgr) (es : list (ev * junk)) : option mgr :=
  match es with
  | [] => Some s
  | e :: r => match step w s e with Some s1 => run w s1 r | None => None end
  end.

(** * Loading a recipe into the line *)

(** [LoadRecipeToParams], cpp:199-219, called with 2, 16, 103 (cip_tech_def.cpp:1699-1700); the result tells
    whether something was loaded. [par]: the parameters, [cnt]: their number. *)
Fixpoint load_vals (w : Z) (j : junk) (m : Z -> Z) (r from to : Z) (n : nat) (par : Z -> Z) : option (Z -> Z) :=
  match n with
  | O => Some par
  | S k => match get w j m r from with
           | Some x => load_vals w j m r (from + 1) (to + 1) k (fun i => if i =? to then x else par i)
           | None => None
           end
  end.
Definition load_params (w : Z) (j : junk) (m : Z -> Z) (r from to n cnt : Z) (par : Z -> Z) : option (bool * (Z -> Z)) :=
  if (r <? NREC) && (from + n <? (SIZE - OFFSET) / 4) && (to + n <? cnt) then
    match load_vals w j m r from to (Z.to_nat n) par with Some p => Some (true, p) | None => None end
  else Some (false, par).
(** The selection of a recipe, cip_tech_def.cpp:1697-1704: parameters, name, number. *)
Definition select (w : Z) (j : junk) (m : Z -> Z) (cnt sel : Z) (par : Z -> Z) : option ((Z -> Z) * list Z * Z) :=
  match load_params w j m (sel - 1) 2 16 103 cnt par, read_name m (sel - 1) with
  | Some (_, p), Some t => Some (p, t, sel - 1)
  | _, _ => None
  end.

(** * Recipes of media *)

(** Names of media: 10 recipes, [recipeNameLength] 30, also the size of [currentRecipeName]; cpp:638-646, 660.
    The name is saved as it is (806-809), but converted from Windows-1251 when it is loaded (894-897). *)
Definition MLEN : Z := 30.
Record media := { stored : Z -> list Z; mcur : Z; mname : list Z }.
(** [LoadRecipeName]: up to the first zero (the rest of the temporary array is not written), cpp:949-964. *)
Fixpoint before_zero (l : list Z) : option (list Z) :=
  match l with
  | [] => None
  | c :: r => if c =? 0 then Some [] else match before_zero r with Some t => Some (c :: t) | None => None end
  end.
(** The array after a string of [t] and its zero are written to it. *)
Definition filled (t old : list Z) : list Z := t ++ 0 :: skipn (S (length t)) old.
Definition m_load (s : media) : option media :=
  match before_zero (stored s (mcur s)) with
  | Some l => let t := win1251_to_utf8 l in
              if Z.of_nat (length t) + 1 <=? MLEN then Some {| stored := stored s; mcur := mcur s; mname := filled t (mname s) |} else None
  | None => None
  end.
Definition m_save (s : media) : media :=
  {| stored := fun r => if r =? mcur s then mname s else stored s r; mcur := mcur s; mname := mname s |}.
(** [NextRecipe], [PrevRecipe], cpp:685-715. *)
Definition m_go (r : Z) (s : media) : option media :=
  if (0 <=? r) && (r <? 10) then m_load {| stored := stored (m_save s); mcur := r; mname := mname s |} else Some s.
Fixpoint m_tour (rs : list Z) (s : media) : option media :=
  match rs with
  | [] => Some s
  | r :: q => match m_go r s with Some s1 => m_tour q s1 | None => None end
  end.
(** [strncpy] writes [n] bytes to an array of [cap] bytes: the text and zeros. *)
Definition c_strncpy (cap n : Z) (t : list Z) : option (list Z) :=
  if n <=? cap then Some (firstn (Z.to_nat n) (t ++ repeat 0 (Z.to_nat n))) else None.
(** cip_tech_def.cpp:621-634 [set_cmd] "CAUSTIC_PAR_NAME", 636-649 "ACID_PAR_NAME". *)
Definition m_rename (t : list Z) (s : media) : option media :=
  if utf8_strlen t <? MLEN then
    match c_strncpy MLEN (MLEN * 3) t with Some b => Some {| stored := stored s; mcur := mcur s; mname := b |} | None => None end
  else Some s.

(** Model of the recipes: storages, adapters, their files and the manager.

    Source: /repo/PAC/common/params_recipe_manager.cpp and .h.

    A [float] is its bit pattern, a text a list of bytes (see FTextModel).
    [None] as a result means undefined behaviour of the C++ program (use of an
    indeterminate value, access outside of a vector, conversion of a float to
    [int] out of range).

    Simplifications.
    - One reading of the clock per [evaluate].
    - A file is its content or absent; whether it can be opened for writing is an
      argument.  A write that has been started completes (see [cut] for power
      failures).
    - The parameters of an object are a list; [par_float[ i ] = v] with [i] out of
      range changes no parameter (param_ex.h:191-200, proved for the real layout in
      ParamProps); [save_all] copies the list (param_ex.h:512-518).
    - [recipe - 1], [index - 1], [i + 1] and the sum of the numbers of a map do not
      overflow [int]. *)
From Coq Require Import ZArith List Bool Lia QArith Qround String Ascii.
From Verif Require Import Base TimeModel FTextModel.
Import ListNotations.
Open Scope list_scope.
Open Scope Z_scope.

(** A text constant. *)
Fixpoint codes (s : string) : list Z :=
  match s with
  | EmptyString => []
  | String a r => Z.of_nat (nat_of_ascii a) :: codes r
  end.
Fixpoint eqtext (a b : list Z) : bool :=
  match a, b with
  | [], [] => true
  | x :: r, y :: s => (x =? y) && eqtext r s
  | _, _ => false
  end.

(** * Storages *)

(** params_recipe_manager.h:13-25. *)
Record recipe := mkR { r_name : list Z; r_par : list Z }.
(** h:27-51; [s_act] is [mActiveRecipe], zero based. *)
Record storage := mkS
  { s_cnt : Z; s_pcnt : Z; s_act : Z; s_changed : bool; s_recs : list recipe }.

Definition with_recs (s : storage) (r : list recipe) : storage :=
  mkS (s_cnt s) (s_pcnt s) (s_act s) (s_changed s) r.
Definition with_changed (s : storage) (b : bool) : storage :=
  mkS (s_cnt s) (s_pcnt s) (s_act s) b (s_recs s).
Definition with_act (s : storage) (a : Z) : storage :=
  mkS (s_cnt s) (s_pcnt s) a (s_changed s) (s_recs s).

(** Element [i] of a vector replaced. *)
Fixpoint upd {A} (l : list A) (i : nat) (v : A) : list A :=
  match l, i with
  | [], _ => []
  | _ :: r, O => v :: r
  | a :: r, S j => a :: upd r j v
  end.

(** cpp:234-247: the constructor before [deserialize]. *)
Definition fresh (cnt pcnt : Z) : storage :=
  mkS cnt pcnt 0 false (repeat (mkR (codes "none") (repeat 0 (Z.to_nat pcnt))) (Z.to_nat cnt)).

(** Parameter [parNo - 1] of recipe [recNo - 1] set if it differs. *)
Definition put (s : storage) (i j : nat) (v : Z) : option storage :=
  match nth_error (s_recs s) i with
  | None => None
  | Some r =>
      match nth_error (r_par r) j with
      | None => None
      | Some old =>
          Some (if fne old v
                then mkS (s_cnt s) (s_pcnt s) (s_act s) true
                         (upd (s_recs s) i (mkR (r_name r) (upd (r_par r) j v)))
                else s)
      end
  end.

(** cpp:264-274 [setRecPar]. *)
Definition setRecPar (s : storage) (recNo parNo v : Z) : option storage :=
  if (recNo <=? s_cnt s) && (parNo <=? s_pcnt s) && (0 <? recNo) && (0 <? parNo)
  then put s (Z.to_nat (recNo - 1)) (Z.to_nat (parNo - 1)) v
  else Some s.

(** cpp:276-286 [getRecPar]; the arguments are [unsigned int]. *)
Definition getRecPar (s : storage) (recNo parNo : Z) : option Z :=
  if (s32 recNo <=? s_cnt s) && (s32 parNo <=? s_pcnt s) && (0 <? s32 recNo) && (0 <? s32 parNo)
  then match nth_error (s_recs s) (Z.to_nat (recNo - 1)) with
       | Some r => nth_error (r_par r) (Z.to_nat (parNo - 1))
       | None => None
       end
  else Some 0.

(** cpp:365-368 [getActiveRecipe]. *)
Definition getActiveRecipe (s : storage) : Z := s_act s + 1.
(** cpp:370-381 [setActiveRecipe]. *)
Definition setActiveRecipe (s : storage) (recipe : Z) : storage * Z :=
  if (recipe - 1 <? s_cnt s) && (0 <? recipe)
  then if negb (s_act s =? recipe - 1) then (with_act s (recipe - 1), recipe - 1) else (s, -1)
  else (s, -1).
(** cpp:383-390 [getActiveRecipeRef]: the index. *)
Definition activeIndex (s : storage) : nat :=
  if s_act s <? s_cnt s then Z.to_nat (s_act s) else O.

(** * The file of a storage *)

(** cpp:300-304: the parameters of a recipe, each followed by a space. *)
Definition show_pars (l : list Z) : list Z := flat_map (fun p => show_float p ++ [32]) l.
Definition show_recipe (r : recipe) : list Z := r_name r ++ [10] ++ show_pars (r_par r) ++ [10].
(** cpp:288-311 [serialize]. *)
Definition serialize (s : storage) : list Z :=
  show_int (s_cnt s) ++ [32] ++ show_int (s_pcnt s) ++ [10] ++ flat_map show_recipe (s_recs s).

(** cpp:335-344: [n] parameters; [None]: the variable stays indeterminate. *)
Fixpoint read_pars (n : nat) (s : stream) : list (option Z) * stream :=
  match n with
  | O => ([], s)
  | S n' => let '(v, s1) := get_float s in
            let '(l, s2) := read_pars n' s1 in (v :: l, s2)
  end.
(** cpp:332-345. *)
Definition read_recipe (pc : nat) (s : stream) : list Z * list (option Z) * stream :=
  let '(name, s2) := getline (ignore s) in
  let '(l, s3) := read_pars pc s2 in (name, l, ignore s3).
(** cpp:328-351. *)
Fixpoint read_recipes (n pc : nat) (s : stream) : list (list Z * list (option Z)) :=
  match n with
  | O => []
  | S n' => let '(name, l, s1) := read_recipe pc s in (name, l) :: read_recipes n' pc s1
  end.

(** The vector of parameters after cpp:331, 339-342. *)
Fixpoint fill (n : nat) (l : list (option Z)) : option (list Z) :=
  match n with
  | O => Some []
  | S n' => match l with
            | [] => Some (repeat 0 n)
            | Some v :: r => option_map (cons v) (fill n' r)
            | None :: _ => None
            end
  end.
Fixpoint fill_all (n : nat) (l : list (list Z * list (option Z))) : option (list recipe) :=
  match l with
  | [] => Some []
  | (name, ps) :: r =>
      match fill n ps, fill_all n r with
      | Some v, Some q => Some (mkR name v :: q)
      | _, _ => None
      end
  end.
(** cpp:346-351: the first recipes replaced. *)
Fixpoint overlay {A} (old new : list A) : list A :=
  match old, new with
  | [], _ => []
  | _, [] => old
  | _ :: o, n :: r => n :: overlay o r
  end.

(** cpp:313-363 [deserialize]. *)
Definition deserialize (s : storage) (file : option (list Z)) : option storage :=
  match file with
  | None => Some s
  | Some text =>
      let '(rc, s1) := get_int (open_in text) in
      let '(pc, s2) := get_int s1 in
      match rc, pc with
      | Some rc, Some pc =>
          match fill_all (Z.to_nat (s_pcnt s)) (read_recipes (Z.to_nat rc) (Z.to_nat pc) s2) with
          | Some new => Some (with_recs s (overlay (s_recs s) new))
          | None => None
          end
      | _, _ => None
      end
  end.

(** cpp:234-247: the constructor. *)
Definition create (cnt pcnt : Z) (file : option (list Z)) : option storage :=
  deserialize (fresh cnt pcnt) file.

(** * Adapters *)

(** h:53-59. *)
Record rmap := mkM { m_rec : Z; m_obj : Z; m_qty : Z }.
(** h:61-89; [a_st] is the number of the storage. *)
Record adapter := mkA
  { a_st : nat; a_maps : list rmap; a_active : list Z; a_changed : bool; a_loaded : bool;
    a_refresh : bool; a_list : list Z; a_lists : list (list Z); a_sep : bool }.

(** cpp:404-416 [addMap]. *)
Definition addMap (a : adapter) (r o q : Z) : adapter :=
  if (0 <? r) && (0 <? o) && (0 <? q)
  then mkA (a_st a) (a_maps a ++ [mkM r o q]) (a_active a) (a_changed a) (a_loaded a)
           (a_refresh a) (a_list a) (a_lists a) (a_sep a)
  else a.

(** tech_def.h: the part of a technological object used here: parameters, their
    saved copy, number and name of the recipe loaded last. *)
Record tobj := mkO { o_par : list Z; o_saved : list Z; o_nmr : Z; o_name : list Z }.

(** [par_float[ i ] = v]. *)
Definition set_par (l : list Z) (i v : Z) : list Z :=
  if (0 <? i) && (i <=? Z.of_nat (List.length l)) then upd l (Z.to_nat (i - 1)) v else l.

(** cpp:432-435. *)
Fixpoint copy_map (n : nat) (s : storage) (recNo r o : Z) (l : list Z) : option (list Z) :=
  match n with
  | O => Some l
  | S n' =>
      match getRecPar s recNo (u32 r) with
      | Some v => copy_map n' s recNo (r + 1) (o + 1) (set_par l (u32 o) v)
      | None => None
      end
  end.
(** cpp:427-436: [false]: left by [return]. *)
Fixpoint copy_maps (ms : list rmap) (s : storage) (recNo : Z) (l : list Z) : option (list Z * bool) :=
  match ms with
  | [] => Some (l, true)
  | m :: r =>
      if (s_pcnt s + 1 <? s32 (m_rec m) + s32 (m_qty m)) ||
         (Z.of_nat (List.length l) <? u32 (m_obj m + m_qty m))
      then Some (l, false)
      else match copy_map (Z.to_nat (s32 (m_qty m))) s recNo (m_rec m) (m_obj m) l with
           | Some l1 => copy_maps r s recNo l1
           | None => None
           end
  end.
(** cpp:418-441 [loadParams]: the object and whether [isLoaded] is set. *)
Definition loadParams (a : adapter) (s : storage) (os : list tobj) (obj recNo : Z) : option (list tobj * bool) :=
  if (Z.of_nat (List.length os) <? obj) || (obj <? 1) then Some (os, false)
  else if (s_cnt s <? s32 recNo) || (recNo =? 0) then Some (os, false)
  else match nth_error os (Z.to_nat (obj - 1)) with
       | None => None
       | Some o =>
           match copy_maps (a_maps a) s recNo (o_par o) with
           | None => None
           | Some (l, false) =>
               Some (upd os (Z.to_nat (obj - 1)) (mkO l (o_saved o) (o_nmr o) (o_name o)), false)
           | Some (l, true) =>
               match nth_error (s_recs s) (Z.to_nat (recNo - 1)) with
               | None => None
               | Some r => Some (upd os (Z.to_nat (obj - 1)) (mkO l l (s32 recNo) (r_name r)), true)
               end
           end
       end.

(** cpp:580-606 [refreshRecipeList]; the loop at 583-586 clears copies. *)
Definition entry (i : Z) (name : list Z) : list Z := show_int (i + 1) ++ [35; 35] ++ name ++ [124; 124].
Fixpoint refresh_loop (i : Z) (act : list Z) (rs : list recipe) (sep : bool) (l : list Z) (ls : list (list Z))
  : option (list Z * list (list Z)) :=
  match rs with
  | [] => Some (l, ls)
  | r :: rs' =>
      match act with
      | [] => None
      | f :: act' =>
          if negb (f =? 0) then
            if negb sep then refresh_loop (i + 1) act' rs' sep (l ++ entry i (r_name r)) ls
            else refresh_loop (i + 1) act' rs' sep l
                   (match nth_error ls (Z.to_nat (i / 10)) with
                    | Some x => upd ls (Z.to_nat (i / 10)) (x ++ entry i (r_name r))
                    | None => ls
                    end)
          else refresh_loop (i + 1) act' rs' sep l ls
      end
  end.
Definition refreshRecipeList (a : adapter) (s : storage) : option adapter :=
  match refresh_loop 0 (a_active a) (firstn (Z.to_nat (s_cnt s)) (s_recs s)) (a_sep a) [] (a_lists a) with
  | Some (l, ls) =>
      Some (mkA (a_st a) (a_maps a) (a_active a) (a_changed a) (a_loaded a) (a_refresh a) l ls (a_sep a))
  | None => None
  end.
(** cpp:608-612 [setUseSeparateRecipeList]. *)
Definition setSeparate (a : adapter) (s : storage) (b : bool) : option adapter :=
  refreshRecipeList (mkA (a_st a) (a_maps a) (a_active a) (a_changed a) (a_loaded a) (a_refresh a)
                         (a_list a) (a_lists a) b) s.

(** cpp:455-470 [serialize]. *)
Definition ser_adapter (act : list Z) : list Z :=
  show_int (Z.of_nat (List.length act)) ++ [10] ++ flat_map (fun v => show_int v ++ [32]) act.
(** cpp:477-504 [deserialize]. *)
Fixpoint read_ints (n : nat) (s : stream) : list (option Z) :=
  match n with
  | O => []
  | S n' => let '(v, s1) := get_int s in v :: read_ints n' s1
  end.
Fixpoint overlay_opt (old : list Z) (new : list (option Z)) : option (list Z) :=
  match old, new with
  | [], _ => Some []
  | _, [] => Some old
  | _ :: o, Some v :: r => option_map (cons v) (overlay_opt o r)
  | _, None :: _ => None
  end.
Definition des_adapter (act : list Z) (file : option (list Z)) : option (list Z) :=
  match file with
  | None => Some act
  | Some text =>
      let '(n, s1) := get_int (open_in text) in
      match n with
      | None => None
      | Some n => overlay_opt act (read_ints (Z.to_nat n) s1)
      end
  end.
(** cpp:443-453: the constructor. *)
Definition create_adapter (st : nat) (s : storage) (file : option (list Z)) : option adapter :=
  match des_adapter (repeat 1 (Z.to_nat (s_cnt s))) file with
  | None => None
  | Some act =>
      let n := s_cnt s / 10 + (if 0 <? s_cnt s mod 10 then 1 else 0) in
      refreshRecipeList (mkA st [] act false false false [] (repeat [] (Z.to_nat n)) false) s
  end.

(** cpp:516-527 [setActiveState]. *)
Definition setActiveState (a : adapter) (s : storage) (state : Z) : option adapter :=
  if getActiveRecipe s - 1 <? Z.of_nat (List.length (a_active a)) then
    Some (mkA (a_st a) (a_maps a)
              (upd (a_active a) (Z.to_nat (getActiveRecipe s - 1)) (if state =? 0 then 0 else 1))
              true (a_loaded a) (a_refresh a) (a_list a) (a_lists a) (a_sep a))
  else None.
(** cpp:511-514 [getActiveState]. *)
Definition getActiveState (a : adapter) (s : storage) : option Z :=
  nth_error (a_active a) (Z.to_nat (getActiveRecipe s - 1)).

(** [( int ) value] for a float. *)
Definition to_int (b : Z) : option Z :=
  if f_finite b then
    let v := if f_neg b then - Qfloor (f_abs b) else Qfloor (f_abs b) in
    if (- 2 ^ 31 <=? v) && (v <? 2 ^ 31) then Some v else None
  else None.

(** * The manager *)

(** h:91-125 with the files ([recipes_i.serialized], [paramsadapter_i.serialized],
    [paramstech.serialized]) and the objects of the project. *)
Record mgr := mkG
  { g_st : list storage; g_ad : list adapter; g_obj : list tobj;
    t_ad : Z; t_rec : Z; t_obj : Z;
    f_rec : list (option (list Z)); f_ad : list (option (list Z)); f_tech : option (list Z) }.

Definition with_st (g : mgr) (l : list storage) : mgr :=
  mkG l (g_ad g) (g_obj g) (t_ad g) (t_rec g) (t_obj g) (f_rec g) (f_ad g) (f_tech g).
Definition with_ad (g : mgr) (l : list adapter) : mgr :=
  mkG (g_st g) l (g_obj g) (t_ad g) (t_rec g) (t_obj g) (f_rec g) (f_ad g) (f_tech g).
Definition with_obj (g : mgr) (l : list tobj) : mgr :=
  mkG (g_st g) (g_ad g) l (t_ad g) (t_rec g) (t_obj g) (f_rec g) (f_ad g) (f_tech g).

Definition a_with_refresh (a : adapter) (b : bool) : adapter :=
  mkA (a_st a) (a_maps a) (a_active a) (a_changed a) (a_loaded a) b (a_list a) (a_lists a) (a_sep a).
Definition a_with_loaded (a : adapter) (b : bool) : adapter :=
  mkA (a_st a) (a_maps a) (a_active a) (a_changed a) b (a_refresh a) (a_list a) (a_lists a) (a_sep a).
Definition a_with_changed (a : adapter) (b : bool) : adapter :=
  mkA (a_st a) (a_maps a) (a_active a) b (a_loaded a) (a_refresh a) (a_list a) (a_lists a) (a_sep a).

(** cpp:534-578 [set_cmd] of adapter [k]. *)
Definition set_cmd (g : mgr) (k : nat) (var : list Z) (index value : Z) (str : list Z) : option mgr :=
  match nth_error (g_ad g) k with
  | None => None
  | Some a =>
      match nth_error (g_st g) (a_st a) with
      | None => None
      | Some s =>
          if eqtext var (codes "ACT") then
            match to_int value with
            | None => None
            | Some v => match setActiveState a s v with
                        | None => None
                        | Some a1 => Some (with_ad g (upd (g_ad g) k (a_with_refresh a1 true)))
                        end
            end
          else if eqtext var (codes "CMD") then
            match to_int value with
            | None => None
            | Some c =>
                if c =? 789 then
                  match deserialize s (nth (a_st a) (f_rec g) None) with
                  | None => None
                  | Some s1 => Some (with_st g (upd (g_st g) (a_st a) s1))
                  end
                else if 1000 <? c then
                  match loadParams a s (g_obj g) (c / 1000) (c mod 1000) with
                  | None => None
                  | Some (os, ld) =>
                      let g1 := with_obj g os in
                      Some (if ld then with_ad g1 (upd (g_ad g) k (a_with_loaded a true)) else g1)
                  end
                else Some g
            end
          else if eqtext var (codes "NAME") then
            match nth_error (s_recs s) (activeIndex s) with
            | None => None
            | Some r =>
                let s1 := mkS (s_cnt s) (s_pcnt s) (s_act s) true
                              (upd (s_recs s) (activeIndex s) (mkR str (r_par r))) in
                Some (with_ad (with_st g (upd (g_st g) (a_st a) s1)) (upd (g_ad g) k (a_with_refresh a true)))
            end
          else if eqtext var (codes "NMR") then
            match to_int value with
            | None => None
            | Some v => Some (with_st g (upd (g_st g) (a_st a) (fst (setActiveRecipe s v))))
            end
          else if eqtext var (codes "PAR") then
            if (index <=? s_pcnt s) && (0 <? index) then
              match put s (activeIndex s) (Z.to_nat (index - 1)) value with
              | None => None
              | Some s1 => Some (with_st g (upd (g_st g) (a_st a) s1))
              end
            else Some g
          else Some g
      end
  end.

(** h:109. *)
Definition MIN_SAVE_INTERVAL_MS : Z := 10000.

(** cpp:179-197 [saveTechObjects]. *)
Definition show_tech (os : list tobj) : list Z :=
  show_int (Z.of_nat (List.length os)) ++ [10] ++
  flat_map (fun o => o_name o ++ [10] ++ show_int (o_nmr o) ++ [10]) os.
(** cpp:199-220 [loadTechObjects]: [recipeNmr] is 0 unless read, a missing count
    leaves [count] 0. *)
Fixpoint read_tech (n : nat) (s : stream) (os : list tobj) : list tobj :=
  match n with
  | O => os
  | S n' =>
      let '(name, s1) := getline (ignore s) in
      let '(v, s2) := get_int s1 in
      match os with
      | [] => []
      | o :: r => mkO (o_par o) (o_saved o) (match v with Some x => x | None => 0 end) name
                  :: read_tech n' s2 r
      end
  end.
Definition load_tech (os : list tobj) (file : option (list Z)) : list tobj :=
  match file with
  | None => os
  | Some text =>
      let '(n, s1) := get_int (open_in text) in
      read_tech (Z.to_nat (match n with Some x => x | None => 0 end)) s1 os
  end.

(** cpp:133-157: the adapters.  [due_a], [due_t]: more than the interval since the
    last saving; [ok]: files can be opened for writing.  Result: adapters, files,
    whether one was saved, whether the objects are to be saved. *)
Fixpoint eval_ads (due_a due_t ok : bool) (sts : list storage) (l : list adapter) (fs : list (option (list Z)))
  : option (list adapter * list (option (list Z)) * bool * bool) :=
  match l, fs with
  | a :: r, f :: fr =>
      if a_changed a && due_a then
        Some (a_with_changed a false :: r, (if ok then Some (ser_adapter (a_active a)) else f) :: fr, true, false)
      else
        match (if a_refresh a then
                 match nth_error sts (a_st a) with
                 | Some s => refreshRecipeList (a_with_refresh a false) s
                 | None => None
                 end
               else Some a) with
        | None => None
        | Some a1 =>
            let ld := a_loaded a1 && due_t in
            match eval_ads due_a due_t ok sts r fr with
            | None => None
            | Some (r1, fr1, sv, w) =>
                Some ((if ld then a_with_loaded a1 false else a1) :: r1, f :: fr1, sv, ld || w)
            end
        end
  | _, _ => Some (l, fs, false, false)
  end.
(** cpp:163-175: the first changed storage is written.  Result: storages, files,
    whether one was saved. *)
Fixpoint eval_sts (due ok : bool) (l : list storage) (fs : list (option (list Z)))
  : list storage * list (option (list Z)) * bool :=
  match l, fs with
  | s :: r, f :: fr =>
      if s_changed s && due then
        (with_changed s false :: r, (if ok then Some (serialize s) else f) :: fr, true)
      else let '(r1, fr1, sv) := eval_sts due ok r fr in (s :: r1, f :: fr1, sv)
  | _, _ => (l, fs, false)
  end.
(** cpp:130-177 [evaluate] at clock reading [now]. *)
Definition evaluate (w now : Z) (ok : bool) (g : mgr) : option mgr :=
  let due t := MIN_SAVE_INTERVAL_MS <? get_delta_millisec w now t in
  match eval_ads (due (t_ad g)) (due (t_obj g)) ok (g_st g) (g_ad g) (f_ad g) with
  | None => None
  | Some (ads, fad, sv, ld) =>
      let '(sts, frec, sr) := eval_sts (due (t_rec g)) ok (g_st g) (f_rec g) in
      Some (mkG sts ads (g_obj g)
                (if sv then now else t_ad g) (if sr then now else t_rec g) (if ld then now else t_obj g)
                frec fad (if ld && ok then Some (show_tech (g_obj g)) else f_tech g))
  end.

(** * Commands of the monitoring system *)

(** [\d], [\w] of the regular expression at cpp:104. *)
Definition wordchar (c : Z) : bool :=
  isdigit c || ((65 <=? c) && (c <=? 90)) || ((97 <=? c) && (c <=? 122)) || (c =? 95).
Fixpoint span (p : Z -> bool) (l : list Z) : list Z * list Z :=
  match l with
  | c :: r => if p c then let '(a, b) := span p r in (c :: a, b) else ([], l)
  | [] => ([], [])
  end.
Fixpoint prefix (p l : list Z) : option (list Z) :=
  match p, l with
  | [], _ => Some l
  | x :: q, y :: r => if x =? y then prefix q r else None
  | _, [] => None
  end.
Definition quote : Z := 34.
(** Any characters but line ends, then quote, space and closing parenthesis at the
    end of the text. *)
Definition any (c : Z) : bool := negb ((c =? 10) || (c =? 13)).
Fixpoint quoted (l : list Z) : option (list Z) :=
  match l with
  | [] => None
  | c :: r => if eqtext l [34; 32; 41] then Some []
              else if any c then option_map (cons c) (quoted r) else None
  end.

(** cpp:104: the whole text matched: number, name, index, then the quoted text or
    the digits. *)
Definition rm_match (l : list Z) : option (list Z * list Z * list Z * (list Z + list Z)) :=
  match prefix (codes "__RECMAN[") l with
  | None => None
  | Some l =>
    let '(n, l) := span isdigit l in
    match n, prefix (codes "]:set_cmd( """) l with
    | _ :: _, Some l =>
      let '(v, l) := span wordchar l in
      match v, prefix (codes """, ") l with
      | _ :: _, Some l =>
        let '(i, l) := span isdigit l in
        match i, prefix (codes ", ") l with
        | _ :: _, Some l =>
          match l with
          | [] => None
          | c :: r =>
              if c =? quote then match quoted r with Some s => Some (n, v, i, inl s) | None => None end
              else let '(d, r) := span (fun c => isdigit c || (c =? 46)) l in
                   if negb (eqtext d []) && eqtext r (codes " )") then Some (n, v, i, inr d) else None
          end
        | _, _ => None
        end
      | _, _ => None
      end
    | _, _ => None
    end
  end.

(** [std::stoi] of digits: [None]: the exception out_of_range. *)
Definition stoi (l : list Z) : option Z :=
  let '(_, v, _) := eat l 0 0 in if v <? 2 ^ 31 then Some v else None.
(** [std::stof] of digits and points: strtof takes the digits with at most one
    point at the beginning.  [None]: an exception (no digits, or the value is too
    large, or it is too small for a normal float and is rounded). *)
Definition stof (l : list Z) : option Z :=
  let '(n1, v1, r1) := eat l 0 0 in
  let '(n2, v2, _) := match r1 with 46 :: r => eat r 0 v1 | _ => (0, v1, r1) end in
  if n1 + n2 =? 0 then None
  else if v2 =? 0 then Some 0
  else let x := (inject_Z v2 * p10 (- n2))%Q in
       let m := nearest x in
       if 255 * 2 ^ 23 <=? m then None
       else if (m <? 2 ^ 23) && negb (Qeq_bool (f_abs m) x) then None
       else Some m.

(** What a command does: nothing and answer [r], call [set_cmd], or an exception. *)
Inductive command :=
| Ignored
| Call (n : Z) (var : list Z) (idx value : Z) (str : list Z)
| Throws.
(** cpp:105-113. *)
Definition parse_cmd (l : list Z) : command :=
  match rm_match l with
  | None => Ignored
  | Some (n, v, i, x) =>
      match stoi n, stoi i with
      | Some n, Some i =>
          match x with
          | inl s => Call n v i 0 s
          | inr d => match stof d with Some f => Call n v i f [] | None => Throws end
          end
      | _, _ => Throws
      end
  end.
(** cpp:99-121 [parseDriverCmd]; [buff] is the text before the first zero byte.
    The manager afterwards ([None]: undefined behaviour or an exception) and the
    result. *)
Definition parseDriverCmd (g : mgr) (l : list Z) : option mgr * Z :=
  match parse_cmd l with
  | Ignored => (Some g, 0)
  | Throws => (None, 0)
  | Call n v i f s =>
      (if n - 1 <? Z.of_nat (List.length (g_ad g))
       then if n =? 0 then None else set_cmd g (Z.to_nat (n - 1)) v i f s
       else Some g, 1)
  end.

(** * The running program *)

(** Calls of a project (Lua) and of the monitoring system. *)
Inductive rev :=
| Tick (now : Z) (ok : bool)
| SetPar (st : nat) (recNo parNo v : Z)
| Active (st : nat) (recipe : Z)
| Cmd (k : nat) (var : list Z) (index value : Z) (str : list Z)
| Load (k : nat) (obj recNo : Z)
| Text (l : list Z).

Definition on_storage (g : mgr) (i : nat) (f : storage -> option storage) : option mgr :=
  match nth_error (g_st g) i with
  | None => Some g
  | Some s => match f s with Some s1 => Some (with_st g (upd (g_st g) i s1)) | None => None end
  end.

Definition rstep (w : Z) (g : mgr) (e : rev) : option mgr :=
  match e with
  | Tick now ok => evaluate w now ok g
  | SetPar st r p v => on_storage g st (fun s => setRecPar s r p v)
  | Active st r => on_storage g st (fun s => Some (fst (setActiveRecipe s r)))
  | Cmd k var i v str => if Nat.ltb k (List.length (g_ad g)) then set_cmd g k var i v str else Some g
  | Load k obj r =>
      match nth_error (g_ad g) k with
      | None => Some g
      | Some a =>
          match nth_error (g_st g) (a_st a) with
          | None => None
          | Some s =>
              match loadParams a s (g_obj g) obj r with
              | None => None
              | Some (os, ld) =>
                  let g1 := with_obj g os in
                  Some (if ld then with_ad g1 (upd (g_ad g) k (a_with_loaded a true)) else g1)
              end
          end
      end
  | Text l => fst (parseDriverCmd g l)
  end.
Fixpoint rrun (w : Z) (g : mgr) (l : list rev) : option mgr :=
  match l with
  | [] => Some g
  | e :: r => match rstep w g e with Some g1 => rrun w g1 r | None => None end
  end.

(** A power failure while a file is written leaves a beginning of the text (the
    file is emptied when it is opened, cpp:290). *)
Definition cut (n : nat) (text : list Z) : list Z := firstn n text.

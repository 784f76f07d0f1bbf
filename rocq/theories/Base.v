(** Shared helpers: fixed-width unsigned integers and byte memories.

    /repo/PAC/common/sys/s_types.h and l_types.h: [u_char] is 8 bit,
    [u_int_2] 16 bit, [u_int]/[u_int_4] 32 bit unsigned. *)
From Coq Require Import ZArith List Bool Lia.
From Coq Require Export ZifyBool.
Import ListNotations.
Open Scope Z_scope.

(** Conversion to an unsigned type of the given width (C++ [conv.integral]). *)
Definition u8  (x : Z) : Z := x mod 2 ^ 8.
Definition u16 (x : Z) : Z := x mod 2 ^ 16.
Definition u32 (x : Z) : Z := x mod 2 ^ 32.

(** Conversion to the two's complement signed types. *)
Definition s16 (x : Z) : Z := (x + 2 ^ 15) mod 2 ^ 16 - 2 ^ 15.
Definition s32 (x : Z) : Z := (x + 2 ^ 31) mod 2 ^ 32 - 2 ^ 31.

Definition is_u8  (x : Z) : Prop := 0 <= x < 256.
Definition is_u32 (x : Z) : Prop := 0 <= x < 2 ^ 32.

Lemma u8_small x : 0 <= x < 256 -> u8 x = x.
Proof. intros H. unfold u8. apply Z.mod_small. exact H. Qed.

Lemma u16_small x : 0 <= x < 65536 -> u16 x = x.
Proof. intros H. unfold u16. apply Z.mod_small. exact H. Qed.

Lemma u32_small x : 0 <= x < 4294967296 -> u32 x = x.
Proof. intros H. unfold u32. apply Z.mod_small. exact H. Qed.

Lemma u8_range x : 0 <= u8 x < 256.
Proof. unfold u8. apply Z.mod_pos_bound. lia. Qed.

Lemma u16_range x : 0 <= u16 x < 65536.
Proof. unfold u16. apply (Z.mod_pos_bound x (2^16)). lia. Qed.

Lemma u32_range x : 0 <= u32 x < 4294967296.
Proof. unfold u32. apply (Z.mod_pos_bound x (2^32)). lia. Qed.

(** Byte memories: address -> byte. *)
Definition mem := Z -> Z.

(** [mwrite m a f n]: bytes [f 0 .. f (n-1)] stored at [a .. a+n-1]. *)
Definition mwrite (m : mem) (a : Z) (f : Z -> Z) (n : Z) : mem :=
  fun x => if (a <=? x) && (x <? a + n) then f (x - a) else m x.

Lemma mwrite_in m a f n x :
  a <= x < a + n -> mwrite m a f n x = f (x - a).
Proof.
  intros H. unfold mwrite.
  destruct ((a <=? x) && (x <? a + n)) eqn:E; [reflexivity | lia].
Qed.

Lemma mwrite_out m a f n x :
  ~ (a <= x < a + n) -> mwrite m a f n x = m x.
Proof.
  intros H. unfold mwrite.
  destruct ((a <=? x) && (x <? a + n)) eqn:E; [lia | reflexivity].
Qed.

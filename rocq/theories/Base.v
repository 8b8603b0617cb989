(** Bytes, fixed-width integers and list helpers shared by the model.
    Nothing here is specific to the library: this file only fixes how Rust's [u8], [Vec<u8>],
    integer casts and slices are written in Gallina. *)
From Coq Require Export List Bool Arith ZArith NArith Lia.
From Coq Require Export Strings.Byte.
Export ListNotations.
Require Import ZifyBool ZifyNat ZifyN.
Local Open Scope Z_scope.

(** A Rust [u8] is Coq's 256-element type [byte]; every [list byte] is a possible [Vec<u8>]. *)
Definition b2z (b : byte) : Z := Z.of_N (Byte.to_N b).

(** The cast [z as u8]. *)
Definition z2b (z : Z) : byte :=
  match Byte.of_N (Z.to_N (z mod 256)) with Some b => b | None => x00 end.

(** Two's-complement wrap to an unsigned width ([as u16], [wrapping_*]). *)
Definition wrap (bits z : Z) : Z := z mod 2 ^ bits.
Definition u16 (z : Z) : Z := wrap 16 z.
Definition u32 (z : Z) : Z := wrap 32 z.
Definition u64 (z : Z) : Z := wrap 64 z.
(** Two's-complement wrap to a signed width ([as i32], [as i64]). *)
Definition swrap (bits z : Z) : Z :=
  let r := z mod 2 ^ bits in if r <? 2 ^ (bits - 1) then r else r - 2 ^ bits.
Definition i32 (z : Z) : Z := swrap 32 z.
Definition i64 (z : Z) : Z := swrap 64 z.

(** Length of a [Vec] as a number. *)
Definition zlen {A} (l : list A) : Z := Z.of_nat (length l).

(** [v[i] = x] for [i < v.len()] (identity otherwise; all uses are guarded). *)
Fixpoint list_set {A} (i : nat) (x : A) (l : list A) : list A :=
  match l, i with
  | [], _ => []
  | _ :: t, O => x :: t
  | h :: t, S i' => h :: list_set i' x t
  end.

(** [Iterator::position]. *)
Fixpoint position {A} (f : A -> bool) (l : list A) : option nat :=
  match l with
  | [] => None
  | x :: t => if f x then Some O else option_map S (position f t)
  end.

(** [slice.chunks(n)] for [n > 0]; [fuel] only bounds the recursion (the length suffices). *)
Fixpoint chunks_fuel {A} (fuel n : nat) (l : list A) : list (list A) :=
  match fuel, l with
  | _, [] => []
  | O, _ => []
  | S f, _ => firstn n l :: chunks_fuel f n (skipn n l)
  end.
Definition chunks {A} (n : nat) (l : list A) : list (list A) := chunks_fuel (length l) n l.

(** Big-endian reading and writing of byte strings. *)
Definition be_decode (bs : list byte) : Z := fold_left (fun acc b => acc * 256 + b2z b) bs 0.
Fixpoint be_encode (n : nat) (v : Z) : list byte :=
  match n with
  | O => []
  | S n' => be_encode n' (v / 256) ++ [z2b v]
  end.

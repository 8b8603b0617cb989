(** IEEE-754 binary64 through Coq's axiom-free [SpecFloat]; the casts Rust performs; [ewma] of util.rs. *)
From Coq Require Export Floats.SpecFloat.
From Verif Require Export Base.
Local Open Scope Z_scope.

Definition f64 := spec_float.
Definition prec : Z := 53.
Definition emax : Z := 1024.
Definition f_add (a b : f64) : f64 := SFadd prec emax a b.
Definition f_sub (a b : f64) : f64 := SFsub prec emax a b.
Definition f_mul (a b : f64) : f64 := SFmul prec emax a b.
Definition f_div (a b : f64) : f64 := SFdiv prec emax a b.

(** [z as f64] (round to nearest, ties to even) *)
Definition f_of_Z (z : Z) : f64 := binary_normalize prec emax z 0 false.

(** Truncation towards zero of a finite float *)
Definition f_trunc (neg : bool) (m : positive) (e : Z) : Z :=
  let a := if 0 <=? e then Zpos m * 2 ^ e else Zpos m / 2 ^ (- e) in
  if neg then - a else a.

(** [f as i64] / [f as u32]: truncate, saturate, NaN is 0 *)
Definition f_to_int (lo hi : Z) (f : f64) : Z :=
  match f with
  | S754_zero _ | S754_nan => 0
  | S754_infinity s => if s then lo else hi
  | S754_finite s m e => Z.max lo (Z.min hi (f_trunc s m e))
  end.
Definition f_to_i64 : f64 -> Z := f_to_int (- 2 ^ 63) (2 ^ 63 - 1).
Definition f_to_u32 : f64 -> Z := f_to_int 0 (2 ^ 32 - 1).

(** util.rs:7-16 [ewma] over i64 samples (time.rs:86-94: [to_f64] goes through [to_i64]) *)
Definition ewma (samples : list Z) (alpha : f64) : f64 :=
  match samples with
  | [] => f_of_Z 0
  | x :: rest =>
    fold_left (fun avg sample => f_add (f_mul alpha (f_of_Z sample)) (f_mul (f_sub (f_of_Z 1) alpha) avg))
              rest (f_of_Z x)
  end.

(** The literal 0.333: the binary64 number nearest to 333/1000 (division of exact integers is correctly
    rounded). *)
Definition f_0_333 : f64 := f_div (f_of_Z 333) (f_of_Z 1000).

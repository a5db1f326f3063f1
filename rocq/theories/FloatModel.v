(** IEEE-754 arithmetic used by the library, on the specification floats of the
    Coq standard library.  C double = binary64 (precision 53, emax 1024), C
    float = binary32 (24, 128), round to nearest even, FLT_EVAL_METHOD = 0. *)
From Coq Require Export ZArith Floats.SpecFloat.
From Coq Require Import Bool.
Open Scope Z_scope.

Definition f64 := spec_float.
Definition f32 := spec_float.

Definition f64_add : f64 -> f64 -> f64 := SFadd 53 1024.
Definition f64_sub : f64 -> f64 -> f64 := SFsub 53 1024.
Definition f64_mul : f64 -> f64 -> f64 := SFmul 53 1024.
Definition f64_div : f64 -> f64 -> f64 := SFdiv 53 1024.
Definition f32_sub : f32 -> f32 -> f32 := SFsub 24 128.
(** fabs; C < and > (false when an operand is NaN) *)
Definition fabs (x : f64) : f64 := SFabs x.
Definition flt (x y : spec_float) : bool := SFltb x y.
Definition fgt (x y : spec_float) : bool := SFltb y x.
Definition fge (x y : spec_float) : bool := SFleb y x.

(** Conversion between formats: rounding double -> float, exact float -> double. *)
Definition convert (prec emax : Z) (x : spec_float) : spec_float :=
  match x with
  | S754_finite s m e => binary_normalize prec emax (cond_Zopp s (Zpos m)) e s
  | _ => x
  end.
Definition to_f32 (x : f64) : f32 := convert 24 128 x.
Definition to_f64 (x : f32) : f64 := convert 53 1024 x.

(** Exact or correctly rounded constants *)
Definition f64_of_Z (z : Z) : f64 := binary_normalize 53 1024 z 0 false.
(** decimal constant p/q with p, q exactly representable: correctly rounded *)
Definition f64_ratio (p q : Z) : f64 := f64_div (f64_of_Z p) (f64_of_Z q).

Definition f64_zero : f64 := S754_zero false.
Definition f64_nan : f64 := S754_nan.
Definition is_nan (x : spec_float) : bool := match x with S754_nan => true | _ => false end.

(** (long)floor(x); [None] when the conversion is undefined (NaN, infinity;
    values beyond long range are not excluded). *)
Definition floor_Z (x : f64) : option Z :=
  match x with
  | S754_zero _ => Some 0
  | S754_finite s m e =>
      let z := cond_Zopp s (Zpos m) in
      Some (if e <? 0 then z / 2 ^ (- e) else z * 2 ^ e)
  | _ => None
  end.

(** 1e-10 and 1e-3 as used for tolerances; the latter stored in a float. *)
Definition c_1em10 : f64 := Eval vm_compute in f64_ratio 1 10000000000.
Definition c_1em3f : f32 := Eval vm_compute in to_f32 (f64_ratio 1 1000).
(** 180.0 / 3.14159 *)
Definition c_rad2deg : f64 :=
  Eval vm_compute in f64_div (f64_of_Z 180) (f64_ratio 314159 100000).
Definition f64_one : f64 := Eval vm_compute in f64_of_Z 1.

(** * IEEE-754 binary64 as used by the C++ [double] type.

    Every C++ [double] of /repo is a value of [dbl]: Flocq's
    [BinarySingleNaN.binary_float 53 1024].  The operations are those of the
    C++ abstract machine with FLT_EVAL_METHOD = 0, round to nearest even and no
    contraction.  NaN payload and NaN sign are not represented (no code in
    /repo observes them). *)
From Coq Require Import ZArith Bool List.
From Coq Require Import Floats.SpecFloat.
From Flocq Require Import IEEE754.BinarySingleNaN.
From Flocq Require Import Core.Zaux.

Import ListNotations.
Local Open Scope Z_scope.

Lemma prec_pos : FLX.Prec_gt_0 53. Proof. reflexivity. Qed.
Lemma prec_emax : Prec_lt_emax 53 1024. Proof. reflexivity. Qed.

Definition dbl : Type := binary_float 53 1024.

(** Conversion of an integer to [double] (C++ integral-to-floating conversion,
    round to nearest even). *)
Definition D (z : Z) : dbl :=
  binary_normalize 53 1024 prec_pos prec_emax mode_NE z 0 false.

(** The dyadic rational [m * 2^e] rounded to [double] (used for literals). *)
Definition D2 (m e : Z) : dbl :=
  binary_normalize 53 1024 prec_pos prec_emax mode_NE m e false.

Definition d0 : dbl := B754_zero false.
Definition dnan : dbl := B754_nan.
Definition dinf : dbl := B754_infinity false.
Definition dninf : dbl := B754_infinity true.

(** [std::numeric_limits<double>::max()] and [lowest()]. *)
Definition dmax_float : dbl := Bmax_float (prec_gt_0_ := prec_pos) (prec_lt_emax_ := prec_emax).
Definition dlowest : dbl := Bopp dmax_float.

(** Binary operators [+ - * /] on [double]. *)
Definition dadd (a b : dbl) : dbl :=
  Bplus (prec_gt_0_ := prec_pos) (prec_lt_emax_ := prec_emax) mode_NE a b.
Definition dsub (a b : dbl) : dbl :=
  Bminus (prec_gt_0_ := prec_pos) (prec_lt_emax_ := prec_emax) mode_NE a b.
Definition dmul (a b : dbl) : dbl :=
  Bmult (prec_gt_0_ := prec_pos) (prec_lt_emax_ := prec_emax) mode_NE a b.
Definition ddiv (a b : dbl) : dbl :=
  Bdiv (prec_gt_0_ := prec_pos) (prec_lt_emax_ := prec_emax) mode_NE a b.

(** Relational operators; every comparison with NaN is false except [!=]. *)
Definition dltb (a b : dbl) : bool :=
  match Bcompare a b with Some Lt => true | _ => false end.
Definition dleb (a b : dbl) : bool :=
  match Bcompare a b with Some Lt | Some Eq => true | _ => false end.
Definition dgtb (a b : dbl) : bool := dltb b a.
Definition dgeb (a b : dbl) : bool := dleb b a.
Definition deqb (a b : dbl) : bool :=
  match Bcompare a b with Some Eq => true | _ => false end.
Definition dneb (a b : dbl) : bool := negb (deqb a b).

(** [std::isfinite], [std::isnan]. *)
Definition disfinite (a : dbl) : bool := is_finite a.
Definition disnan (a : dbl) : bool := is_nan a.

(** [std::min(a,b)] returns [b] iff [b < a]; [std::max(a,b)] returns [b] iff
    [a < b]. *)
Definition dmin (a b : dbl) : dbl := if dltb b a then b else a.
Definition dmax (a b : dbl) : dbl := if dltb a b then b else a.

(** [std::min_element] / [std::max_element] on a non-empty range given as head
    and tail: the first smallest (largest) element with respect to [<]. *)
Fixpoint min_element (best : dbl) (l : list dbl) : dbl :=
  match l with
  | [] => best
  | x :: r => min_element (if dltb x best then x else best) r
  end.
Fixpoint max_element (best : dbl) (l : list dbl) : dbl :=
  match l with
  | [] => best
  | x :: r => max_element (if dltb best x then x else best) r
  end.

Definition int64_min : Z := - 2 ^ 63.
Definition int64_max : Z := 2 ^ 63 - 1.
Definition uint64_max : Z := 2 ^ 64 - 1.

(** [static_cast<T>(double)] for an integer type with range [lo..hi]:
    truncation toward zero; undefined behaviour ([None]) when the value is not
    finite or the truncated value does not fit ([conv.fpint]). *)
Definition dtrunc (lo hi : Z) (a : dbl) : option Z :=
  if is_finite a
  then let t := Btrunc a in
       if (lo <=? t) && (t <=? hi) then Some t else None
  else None.
Definition to_int64 : dbl -> option Z := dtrunc int64_min int64_max.
Definition to_uint64 : dbl -> option Z := dtrunc 0 uint64_max.

(** Structural identity of doubles, used only to state concrete examples:
    distinguishes the two zeros and identifies NaN with NaN. *)
Definition dsame (a b : dbl) : bool :=
  match B2SF a, B2SF b with
  | S754_zero s, S754_zero s' => Bool.eqb s s'
  | S754_infinity s, S754_infinity s' => Bool.eqb s s'
  | S754_nan, S754_nan => true
  | S754_finite s m e, S754_finite s' m' e' =>
      Bool.eqb s s' && Pos.eqb m m' && Z.eqb e e'
  | _, _ => false
  end.

(** Integer part, for reading concrete examples. *)
Definition dint (a : dbl) : Z := Btrunc a.

(** Order propositions used in statements.  [dle]/[dlt] are false when either
    side is NaN, like the C++ operators. *)
Definition dlt (a b : dbl) : Prop := dltb a b = true.
Definition dle (a b : dbl) : Prop := dleb a b = true.
Definition deq (a b : dbl) : Prop := deqb a b = true.
Definition notnan (a : dbl) : Prop := is_nan a = false.
Definition dfinite (a : dbl) : Prop := is_finite a = true.

Notation is_nan := (@BinarySingleNaN.is_nan 53 1024) (only parsing).
Notation is_finite := (@BinarySingleNaN.is_finite 53 1024) (only parsing).

(** * Specification vocabulary for C84: the control law in real numbers.

    The law is written here over the reals, from the documented formula, with
    no rounding anywhere.  A double of the configuration or of a sample stands
    for the real number [B2R] it represents. *)
From Coq Require Import ZArith Bool List Reals.
From Coq Require Import Floats.SpecFloat.
From Flocq Require Import Core.
From Flocq Require Import IEEE754.BinarySingleNaN.
From Verif Require Import Base Dbl PidModel SpecPid.
Import ListNotations.
Local Open Scope R_scope.

(** What the exact loop remembers between evaluations. *)
Record exact_mem : Type := ExactMem { x_integral : R; x_error : R; x_output : R }.

(** A real number limited to [[lo, hi]]. *)
Definition within (l : limits) (r : R) : R :=
  Rmax (B2R (lim_min l)) (Rmin (B2R (lim_max l)) r).

Definition exact_error (x : sample) : R := B2R (snd x) - B2R (fst x).
Definition exact_P (c : pidinfo) (x : sample) : R :=
  B2R (proportionalCoeff c) * exact_error x.
(** Without an integral coefficient there is no integral term. *)
Definition exact_I (c : pidinfo) (mi : R) (x : sample) : R :=
  if deqb (integralCoeff c) d0 then 0
  else within (integralLimit c)
         (mi + exact_error x * B2R (integralCoeff c) * B2R (ts c)).
Definition exact_D (c : pidinfo) (me : R) (x : sample) : R :=
  B2R (derivativeCoeff c) * ((exact_error x - me) / B2R (ts c)).
Definition exact_FF (c : pidinfo) (x : sample) : R :=
  (B2R (snd x) + B2R (feedFwdOffset c)) * B2R (feedFwdGain c).
Definition exact_unslewed (c : pidinfo) (mi me : R) (x : sample) : R :=
  within (outLim c) (exact_P c x + exact_I c mi x + exact_D c me x + exact_FF c x).

(** The output may fall at most by [slewNeg * ts] and rise at most by
    [slewPos * ts]; a rate of zero means no limit. *)
Definition exact_slew (c : pidinfo) (prev r : R) : R :=
  let lo := if deqb (slewNeg c) d0 then r
            else Rmax r (prev + B2R (slewNeg c) * B2R (ts c)) in
  if deqb (slewPos c) d0 then lo
  else Rmin lo (prev + B2R (slewPos c) * B2R (ts c)).

(** One evaluation.  With a rate limit, the integral is what is left of the
    output after the proportional term. *)
Definition exact_step (c : pidinfo) (m : option exact_mem) (x : sample) : exact_mem :=
  match m with
  | None =>
      ExactMem (within (integralLimit c) (exact_I c 0 x)) (exact_error x)
               (exact_unslewed c 0 0 x)
  | Some m =>
      let o := exact_slew c (x_output m)
                 (exact_unslewed c (x_integral m) (x_error m) x) in
      let i := if deqb (slewNeg c) d0 && deqb (slewPos c) d0
               then exact_I c (x_integral m) x
               else o - exact_P c x in
      ExactMem (within (integralLimit c) i) (exact_error x) o
  end.

Fixpoint exact_outs_from (c : pidinfo) (m : option exact_mem) (h : list sample)
  : list R :=
  match h with
  | [] => []
  | x :: r => let m' := exact_step c m x in
              x_output m' :: exact_outs_from c (Some m') r
  end.
(** The exact outputs for a whole history. *)
Definition exact_outs (c : pidinfo) (h : list sample) : list R :=
  exact_outs_from c None h.

(** ** Scales

    Readings, set points, offsets, limits and rates are at most [2^a] in size,
    coefficients at most [2^k], and the sampling time lies between [2^-t] and
    [2^t]. *)
Definition scaled_cfg (a k t : Z) (c : pidinfo) : Prop :=
  Forall (mag_le a)
    [feedFwdOffset c; lim_min (integralLimit c); lim_max (integralLimit c);
     lim_min (outLim c); lim_max (outLim c); slewNeg c; slewPos c] /\
  Forall (mag_le k)
    [proportionalCoeff c; integralCoeff c; derivativeCoeff c; feedFwdGain c] /\
  mag_le t (ts c) /\ dle (D2 1 (- t)) (ts c).
Definition scaled_sample (a : Z) (x : sample) : Prop := mag_le a (fst x) /\ mag_le a (snd x).

(** Scales for which nothing comes near overflow. *)
Definition scales_ok (a k t : Z) : Prop :=
  (0 <= a /\ 0 <= k /\ 0 <= t /\ a + k + t <= 900)%Z.

(** [2^z] as a real number. *)
Definition two_to (z : Z) : R := bpow radix2 z.

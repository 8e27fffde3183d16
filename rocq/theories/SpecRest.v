(** * Specification vocabulary for loops whose input stays the same (C106)

    Uses the configuration record and the outputs of SpecPid.v only. *)
From Coq Require Import ZArith Bool List.
From Verif Require Import Base Dbl PidModel SpecPid SpecHeat.
Import ListNotations.

(** After any history the same sample comes again and again: the output of its
    evaluation number [n], counted from 0. *)
Definition steady (c : pidinfo) (h : list sample) (x : sample) (n : nat) : dbl :=
  ctrl_out c (h ++ repeat x n) x.

(** From some evaluation on the output does not change. *)
Definition comes_to_rest_at (s : nat -> dbl) (v : dbl) : Prop :=
  exists n0, forall n, (n0 <= n)%nat -> deq (s n) v.
(** After its first value the sequence does not turn round. *)
Definition one_way (s : nat -> dbl) : Prop :=
  (forall n, (1 <= n)%nat -> dle (s n) (s (S n))) \/
  (forall n, (1 <= n)%nat -> dle (s (S n)) (s n)).

(** The same loop without rate limits. *)
Definition without_rate_limits (c : pidinfo) : pidinfo :=
  PidInfo (checkHysterWithSetpt c) (ts c) (proportionalCoeff c) (integralCoeff c)
    (derivativeCoeff c) (feedFwdOffset c) (feedFwdGain c) (integralLimit c) (outLim c)
    d0 d0 (positiveHysteresis c) (negativeHysteresis c).

(** What a rate limit allows in one period changes every output there can be; a
    tiny rate would be lost in rounding. *)
Definition largest_rise (c : pidinfo) : dbl := dmul (slewPos c) (ts c).
Definition largest_fall (c : pidinfo) : dbl := dmul (slewNeg c) (ts c).
Definition visible_rates (c : pidinfo) : Prop :=
  forall v, in_limits (outLim c) v ->
    (deq (slewPos c) d0 \/ dlt v (dadd v (largest_rise c))) /\
    (deq (slewNeg c) d0 \/ dlt (dadd v (largest_fall c)) v).

(** What the integral gains in one period; [up] tells the direction, and every
    value the integral can have is changed by it. *)
Definition gain (c : pidinfo) (x : sample) : dbl :=
  dmul (dmul (dsub (snd x) (fst x)) (integralCoeff c)) (ts c).
Definition visible_gain (up : bool) (c : pidinfo) (x : sample) : Prop :=
  forall v, in_limits (integralLimit c) v ->
    if up then dlt v (dadd v (gain c x)) else dlt (dadd v (gain c x)) v.
(** The output when the integral is at its limit. *)
Definition saturated (up : bool) (c : pidinfo) (x : sample) : dbl :=
  limit (outLim c)
    (dadd (dadd (dmul (proportionalCoeff c) (dsub (snd x) (fst x)))
                (if up then lim_max (integralLimit c) else lim_min (integralLimit c)))
          (dmul (dadd (snd x) (feedFwdOffset c)) (feedFwdGain c))).

(** A simple way to see that rates and gains are visible: values of magnitude at
    most [2^k], changes of at least [2^(k - 52)]. *)
Definition clear_rates (k : Z) (c : pidinfo) : Prop :=
  mag_le k (lim_min (outLim c)) /\ mag_le k (lim_max (outLim c)) /\
  (deq (slewPos c) d0 \/ dle (D2 1 (k - 52)) (largest_rise c)) /\
  (deq (slewNeg c) d0 \/ dle (largest_fall c) (D2 (-1) (k - 52))).
Definition clear_gain (up : bool) (k : Z) (c : pidinfo) (x : sample) : Prop :=
  mag_le k (lim_min (integralLimit c)) /\ mag_le k (lim_max (integralLimit c)) /\
  if up then dle (D2 1 (k - 52)) (gain c x) else dle (gain c x) (D2 (-1) (k - 52)).

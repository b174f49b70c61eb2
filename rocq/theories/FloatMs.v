(** The float arithmetic of [int(timestamp.timestamp() * 1000)] (sct.py:114):
    IEEE 754 binary64 with round-half-even, for the magnitudes a [datetime] can have
    (no overflow, no subnormal).  A positive double is [m * 2^u]. *)
From Coq Require Import ZArith Bool.
Local Open Scope Z_scope.

(** [a / b] rounded to the nearest integer, ties to even ([b > 0]). *)
Definition rne_div (a b : Z) : Z :=
  let q := a / b in
  let r := a mod b in
  if 2 * r <? b then q
  else if b <? 2 * r then q + 1
  else if Z.even q then q else q + 1.

(** Positive and negative part of a power of two exponent. *)
Definition up (u : Z) : Z := 2 ^ (Z.max 0 u).
Definition dn (u : Z) : Z := 2 ^ (Z.max 0 (- u)).

(** [floor (log2 (n / d))] for positive [n], [d]. *)
Definition ilog2 (n d : Z) : Z :=
  let e := Z.log2 n - Z.log2 d in
  if n * dn e <? d * up e then e - 1 else e.

(** The double nearest to [n / d], as (53-bit significand, exponent). *)
Definition round53 (n d : Z) : Z * Z :=
  let u := ilog2 n d - 52 in
  (rne_div (n * dn u) (d * up u), u).

(** [datetime.timestamp()] of an aware datetime [us] microseconds after the epoch:
    [(dt - epoch).total_seconds()], a correctly rounded [us / 10**6]; times [1000];
    truncated by [int].  [us > 0]. *)
Definition float_ms_pos (us : Z) : Z :=
  let '(m, u) := round53 us 1000000 in
  let '(m', u') := round53 (1000 * m * up u) (dn u) in
  m' * up u' / dn u'.

Definition float_ms (us : Z) : Z :=
  if us =? 0 then 0
  else if us <? 0 then - float_ms_pos (- us)
  else float_ms_pos us.

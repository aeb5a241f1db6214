(** Specification vocabulary for the arithmetic helpers (C01, C02). *)
From Verif Require Export Base.
(** [a] is a power of two. *)
Definition power_of_two (a : Z) : Prop := exists k, 0 <= k /\ a = 2^k.
(** [r] is the least multiple of [a] that is at least [x]. *)
Definition least_multiple_above (x a r : Z) : Prop :=
  (a | r) /\ x <= r /\ forall m, (a | m) -> x <= m -> r <= m.
(** [r] is the greatest multiple of [a] that is at most [x]. *)
Definition greatest_multiple_below (x a r : Z) : Prop :=
  (a | r) /\ r <= x /\ forall m, (a | m) -> m <= x -> m <= r.
(** [x] rounded up to a multiple of [a] (see [ceil_mult_least] in UtilsFacts.v). *)
Definition ceil_mult (x a : Z) : Z := ((x + a - 1) / a) * a.

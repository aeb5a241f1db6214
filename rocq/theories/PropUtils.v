(** Properties C01 and C02: arithmetic helpers. *)
From Verif Require Import UtilsModel SpecUtils UtilsFacts.

Theorem C01_align_up_least : forall x a,
  is_u32 x -> is_u32 a -> power_of_two a ->
  (exists m, (a | m) /\ x <= m < 2^32) ->
  least_multiple_above x a (align_up x a).
Proof. exact align_up_fits. Qed.
Print Assumptions C01_align_up_least.
Example C01_align_up_least_case :
  is_u32 513 /\ is_u32 512 /\ power_of_two 512 /\ (exists m, (512 | m) /\ 513 <= m < 2^32) /\ align_up 513 512 = 1024.
Proof.
  unfold is_u32. split; [lia|]. split; [lia|]. split; [exists 9; split; [lia|reflexivity]|].
  split; [exists 1024; split; [exists 2; reflexivity|lia]|reflexivity].
Qed.

Theorem C01_align_up_wraps : forall x a,
  is_u32 x -> is_u32 a -> power_of_two a ->
  (forall m, (a | m) -> x <= m -> 2^32 <= m) ->
  align_up x a = 0.
Proof. exact align_up_wraps. Qed.
Print Assumptions C01_align_up_wraps.
Example C01_align_up_wraps_case :
  (forall m, (4096 | m) -> 0xFFFFF001 <= m -> 2^32 <= m) /\ align_up 0xFFFFF001 4096 = 0.
Proof. split; [intros m [q ->] H; lia|reflexivity]. Qed.

Theorem C01_align_down_greatest : forall x a,
  is_u32 x -> is_u32 a -> power_of_two a -> greatest_multiple_below x a (align_down x a).
Proof. exact align_down_ok. Qed.
Print Assumptions C01_align_down_greatest.
Example C01_align_down_greatest_case : align_down 1535 512 = 1024 /\ align_down 0xFFFFFFFF 0x80000000 = 0x80000000.
Proof. split; reflexivity. Qed.

Theorem C01_is_power_of_2 : forall x, 0 < x < 2^32 -> (is_power_of_2 x = true <-> power_of_two x).
Proof. exact is_power_of_2_spec. Qed.
Print Assumptions C01_is_power_of_2.
Example C01_is_power_of_2_case : is_power_of_2 4096 = true /\ is_power_of_2 4097 = false /\ is_power_of_2 0 = true.
Proof. repeat split. Qed.

Theorem C02_is_sum_safe : forall a b,
  is_u32 a -> is_u32 b -> (is_sum_safe a b = true <-> u32 (a + b) = a + b).
Proof. exact is_sum_safe_exact. Qed.
Print Assumptions C02_is_sum_safe.
Example C02_is_sum_safe_case :
  is_sum_safe 0xFFFFFFF0 15 = true /\ is_sum_safe 0xFFFFFFF0 16 = false.
Proof. split; reflexivity. Qed.

(** Specification vocabulary for entropy (C50). *)
From Verif Require Export EntropyModel.
(** How often byte [b] occurs in [d]. *)
Definition occurrences (b : Z) (d : list Z) : Z := Z.of_nat (count_occ Z.eq_dec d b).
Definition all_bytes : list Z := map Z.of_nat (seq 0 256).
Fixpoint zsum (l : list Z) : Z := match l with [] => 0 | x :: t => x + zsum t end.
Fixpoint rsum (l : list R) : R := match l with [] => 0%R | x :: t => (x + rsum t)%R end.
(** The share of byte [b] in [d] and its contribution - p log2 p to the entropy. *)
Definition share (d : list Z) (b : Z) : R := (IZR (occurrences b d) / IZR (zlen d))%R.
Definition contribution (p : R) : R := if Req_EM_T p 0 then 0%R else (- p * (ln p / ln 2))%R.
Definition shannon (d : list Z) : R := rsum (map (fun b => contribution (share d b)) all_bytes).

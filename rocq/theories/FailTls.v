(** Proofs about what a failed rebuild of the TLS directory leaves behind (C83). *)
From Verif Require Export FailConfig.

Lemma tls_data_agrees t k p : agrees (run_write_tls_data t k p) (q <- write_tls_data p t k ;; Ok (q, tt)).
Proof.
  unfold run_write_tls_data, write_tls_data, step, look, pass, change. destruct (try_expand p (t_start t) _ k) as [p1| | |]; cbn [bind]; try reflexivity.
  destruct (length_rva p1 _ _ RawData true) as [raw| | |]; cbn [bind]; try reflexivity. match goal with |- context [bind (if raw <? ?n then ?a else ?b) _] => destruct (if raw <? n then a else b) as [m| | |] end; cbn [bind]; try reflexivity.
  destruct (m =? 0); cbn [bind]; [reflexivity|]. destruct (rd (t_data t) 0 m) as [bs| | |]; cbn [bind]; try reflexivity. destruct (write_rva p1 (t_start t) bs); reflexivity.
Qed.
Lemma tls_callbacks_agrees t p : agrees (run_write_tls_callbacks t p) (q <- write_tls_callbacks p t ;; Ok (q, tt)).
Proof.
  unfold run_write_tls_callbacks, write_tls_callbacks, step, look, pass, change. cbv zeta. destruct (try_expand p (t_callbacks t) _ _) as [p1| | |]; cbn [bind]; try reflexivity.
  destruct (length_rva p1 _ _ RawData true) as [raw| | |]; cbn [bind]; try reflexivity. destruct (raw <? _); cbn [throw_if bind]; [reflexivity|].
  destruct (length_rva p1 _ _ VirtData true) as [virt| | |]; cbn [bind]; try reflexivity. destruct (virt <? _); cbn [throw_if bind]; [reflexivity|].
  destruct (mmap (rva_to_va p1) (t_list t)) as [vas| | |]; cbn [bind]; try reflexivity. destruct (rd _ 0 _) as [bs| | |]; cbn [bind]; try reflexivity. destruct (write_rva p1 (t_callbacks t) bs); reflexivity.
Qed.
Lemma agrees_step {A B} (m : op A) (k : A -> op B) (f : res (pe * A)) (g : pe * A -> res (pe * B)) p :
  agrees (m p) f -> (forall q a, agrees (k a q) (g (q, a))) -> agrees (step m k p) (bind f g).
Proof.
  unfold step, agrees. destruct (m p) as [q r]. cbn [snd]. destruct f as [[q' a]|e|u|]; cbn [bind]; intros H K; [injection H as -> ->; apply K|rewrite H; reflexivity|rewrite H; reflexivity|rewrite H; reflexivity].
Qed.
Lemma agrees_step_u {B} (m : op unit) (k : unit -> op B) (f : res pe) (g : pe -> res (pe * B)) p :
  agrees (m p) (q <- f ;; Ok (q, tt)) -> (forall q, agrees (k tt q) (g q)) -> agrees (step m k p) (bind f g).
Proof.
  intros H K. pose proof (agrees_step m k (q <- f ;; Ok (q, tt)) (fun x => g (fst x)) p H) as X. destruct f as [q|e|u|]; cbn [bind fst] in *; apply X; intros q0 []; apply K.
Qed.
Lemma tls_agrees t i off callbacks data k save strip p : agrees (run_rebuild_tls t i off callbacks data k save strip p) (rebuild_tls p t i off callbacks data k save strip).
Proof.
  unfold run_rebuild_tls, rebuild_tls. cbv zeta. unfold step at 1. unfold look at 1. unfold step at 1. unfold pass at 1.
  destruct (open_room p i _ _) as [s| | |]; cbn [bind]; try reflexivity. unfold step at 1. unfold pass at 1. destruct (_ || _); cbn [throw_if bind]; [reflexivity|].
  unfold step at 1. unfold change at 1.
  unfold step at 1. unfold pass at 1. destruct (if t_start t =? 0 then Ok 0 else rva_to_va p (t_start t)) as [v1| | |]; cbn [bind]; try reflexivity.
  unfold step at 1. unfold pass at 1. destruct (if t_end t =? 0 then Ok 0 else rva_to_va p (t_end t)) as [v2| | |]; cbn [bind]; try reflexivity.
  unfold step at 1. unfold pass at 1. destruct (rva_to_va p (t_index t)) as [v3| | |]; cbn [bind]; try reflexivity.
  unfold step at 1. unfold pass at 1. destruct (if t_callbacks t =? 0 then Ok 0 else rva_to_va p (t_callbacks t)) as [v4| | |]; cbn [bind]; try reflexivity.
  unfold step at 1. unfold pass at 1. destruct (wr (s_data s) _ _) as [d1| | |]; cbn [bind]; try reflexivity. unfold step at 1. unfold change at 1. rewrite put_put.
  apply agrees_step_u; [match goal with |- context [if ?b then _ else _] => destruct b end; [apply tls_data_agrees|reflexivity]|]. intros p2.
  apply agrees_step_u; [match goal with |- context [if ?b then _ else _] => destruct b end; [apply tls_callbacks_agrees|reflexivity]|]. intros p3.
  apply agrees_step_u; [apply run_recalc_agrees|]. intros p4. apply agrees_step_u; [|intros p5; reflexivity]. destruct save; [|reflexivity]. unfold set_directory. unfold step. rewrite run_dir_rva. destruct (set_directory_rva p4 _ _) as [p5| | |]; cbn [bind]; try reflexivity. rewrite run_dir_size. destruct (set_directory_size p5 _ _); reflexivity.
Qed.
Lemma tls_strong t i off k save strip p q e : good_align p -> sized p i -> entry_for p save dir_tls -> at_most_2g q i -> p_plus p = true ->
  run_rebuild_tls t i off false false k save strip p = (q, Throw e) -> q = p.
Proof.
  intros Ga Sz En Hw Hp H. unfold run_rebuild_tls in H. cbv zeta in H. unfold step at 1 in H. unfold look at 1 in H. unfold step at 1 in H. unfold pass at 1 in H.
  destruct (open_room p i _ _) as [s| | |] eqn:Eo; try discriminate H; [|injection H as <- _; reflexivity]. unfold step at 1 in H. unfold pass at 1 in H. destruct (_ || _) in H; cbn [throw_if] in H; [injection H as <- _; reflexivity|].
  exfalso. unfold step at 1 in H. unfold change at 1 in H. cbn [andb] in H. pose proof (plus_va p) as V.
  unfold step at 1 in H. unfold pass at 1 in H. destruct (V (t_start t) Hp) as [v1 E1]. rewrite E1 in H. replace (if t_start t =? 0 then Ok 0 else Ok v1) with (Ok (if t_start t =? 0 then 0 else v1)) in H by (destruct (t_start t =? 0); reflexivity).
  unfold step at 1 in H. unfold pass at 1 in H. destruct (V (t_end t) Hp) as [v2 E2]. rewrite E2 in H. replace (if t_end t =? 0 then Ok 0 else Ok v2) with (Ok (if t_end t =? 0 then 0 else v2)) in H by (destruct (t_end t =? 0); reflexivity).
  unfold step at 1 in H. unfold pass at 1 in H. destruct (V (t_index t) Hp) as [v3 E3]. rewrite E3 in H.
  unfold step at 1 in H. unfold pass at 1 in H. destruct (V (t_callbacks t) Hp) as [v4 E4]. rewrite E4 in H. replace (if t_callbacks t =? 0 then Ok 0 else Ok v4) with (Ok (if t_callbacks t =? 0 then 0 else v4)) in H by (destruct (t_callbacks t =? 0); reflexivity).
  unfold step at 1 in H. unfold pass at 1 in H. match type of H with context [wr (s_data s) ?a ?b] => pose proof (quiet_wr (s_data s) a b) as Q1; destruct (wr (s_data s) a b) as [d1|x1|u1|] end; cbn [quiet] in Q1; try discriminate H; [|contradiction Q1].
  unfold step at 1 in H. unfold change at 1 in H. unfold step at 1 in H. unfold pass at 1 in H. unfold step at 1 in H. unfold pass at 1 in H.
  eapply (strong_end p i _ _ s d1 _ _ dir_tls save strip q e Ga Sz En (u32_in _) (or_introl eq_refl) Eo Q1 Hw). unfold run_finish. unfold step at 1. unfold change at 1. exact H.
Qed.

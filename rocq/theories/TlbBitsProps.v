(** C31: TLB state survives packing into bits, and calls through the vectors are the
    calls themselves.  Statements in TlbBitsMain and TlbBitsParts; here runs and the
    field that packing does change. *)
From Verif Require Import Base PtwModel PtwSpec TlbModel TlbSpec TlbTrace TlbProps TlbBits TlbBitsProofs TlbBitsMain TlbBitsParts.

Definition e1 : entry := mke true false 5 0 1 3 4194303 207.
Definition w1 : wregs := mkw true true (2 ^ 32 - 1) 2 (2 ^ 31 + 5) 1 true false.
Definition t1 : tin :=
  mkti false false (mkcs (2 ^ 31 + 5 * 2 ^ 22) 1 false false false 0) wregs0 refill0 15 true false (mkwr false 0 0 0)
       [mkpp true (2 ^ 22 + 3 * 4096 + 8) 1 (mklk true e1); mkpp true 4096 1 (mklk false entry0);
        mkpp true 8192 2 (mklk false entry0); mkpp false 0 2 (mklk false entry0)].
Ltac fit := unfold fits; vm_compute; split; [discriminate|reflexivity].
Lemma e1_ok : entry_ok e1.
Proof. split; fit. Qed.
Example c31_example_entry : fst (dec_entry (enc_entry e1)) = e1 /\ length (enc_entry e1) = 62%nat /\ fst (dec_walk (enc_walk w1)) = w1 /\
  (** a field out of range does not survive *)
  e_asid (fst (dec_entry (enc_entry (mke true false 512 0 1 3 7 207)))) = 0.
Proof. vm_compute. repeat split. Qed.
Lemma t1_ports : Forall port_ok (ti_ports t1).
Proof. repeat (apply Forall_cons; [split; [fit|split; [fit|cbn [pp_look l_entry]; first [exact e1_ok|exact entry0_ok]]]|]). apply Forall_nil. Qed.
Lemma t1_ok : tin_ok 16 t1.
Proof.
  constructor; [fit|fit|fit|exact walk0_ok|exact (refill0_ok 16)|fit|split; fit|exact t1_ports].
Qed.
(** One access hits, one starts a walk, one finds the walker taken, one port is idle. *)
Example c31_example_call :
  let o := top_via 16 4 true 2 t1 in o = top 16 t1 /\ wide_top 16 t1 = top 16 t1 /\
  map (fun p => (po_valid p, po_result p, po_pa p)) (to_ports o) = [(true, 0, 2 ^ 32 - 4096 + 8); (true, 2, 0); (true, 2, 0); (false, 0, 0)] /\
  to_rq o = true /\ q_va (to_req o) = 4096.
Proof.
  assert (A := c31_call_exact 16 true 2 t1 ltac:(split; apply Z.leb_le; vm_compute; reflexivity) t1_ok ltac:(vm_compute; repeat split) eq_refl eq_refl). cbv zeta. destruct A as [A1 A2].
  change 4%nat with (length (ti_ports t1)). rewrite A1. split; [reflexivity|]. split; [exact A2|]. vm_compute. repeat split.
Qed.
Example c31_example_wired : let pi := enc_tin 16 t1 in wired 16 4 true 2 pi = top_io 16 4 true 2 pi /\ length pi = 626%nat /\
  length (top_io 16 4 true 2 pi) = 441%nat.
Proof. vm_compute. repeat split. Qed.
Example c31_example_slots : map slot_width [1; 2; 16; 17; 32] = [0; 1; 4; 5; 5]%nat.
Proof. reflexivity. Qed.

(** The widths of the trace fields: on a flush or cancellation the generator's idle port
    output has one initialiser too few, so its level 0xff lands in the three-bit source
    field.  The class's own version of the call says source 0 and level 0xff, the packed
    one source 7 and level 0.  No access is answered in such a call. *)
Theorem c31_control_trace_refuted :
  ~ forall n d k t, 1 <= n <= 2 ^ 32 -> tin_ok n t -> ti_flush t || ti_cancel t = true -> top_via n (length (ti_ports t)) d k t = wide_top n t.
Proof.
  intros H. pose (t := mkti true false (ti_csr t1) wregs0 refill0 15 true false (mkwr false 0 0 0) (ti_ports t1)).
  assert (T : tin_ok 16 t) by (destruct t1_ok; split; assumption).
  specialize (H 16 true 2%nat t ltac:(split; apply Z.leb_le; vm_compute; reflexivity) T eq_refl).
  apply (f_equal (fun o => map po_lev (to_ports o))) in H. vm_compute in H. discriminate H.
Qed.

(** In a run: the data side's two cycles, by value and through the vectors. *)
Example c31_example_run :
  let i := load (sv false) (VP 3) in let l := repeat i 12 in let u := snd (urun l ptb) in
  inputs_ok i /\ result_b u i Dtlb = result u i Dtlb /\ nth 0 (map po_pa (snd (result_b u i Dtlb))) 0 = 7 * 4096 + 8.
Proof.
  intros i l u. assert (V : inputs_ok i).
  { split; [exact I|]. assert (A : va_ok (Some (VP 3))) by (unfold va_ok; split; [apply Z.leb_le|apply Z.ltb_lt]; vm_compute; reflexivity).
    split; [apply Forall_cons; [exact A|apply Forall_cons; [exact I|apply Forall_nil]]|]. split; [apply Forall_cons; [exact I|apply Forall_cons; [exact I|apply Forall_nil]]|]. split; reflexivity. }
  assert (C : calm i) by calm1. assert (F : Forall calm l) by (apply Forall_forall; intros x X; apply repeat_spec in X; subst x; exact C).
  assert (E : result_b u i Dtlb = result u i Dtlb).
  { eapply (c31_cycles_same ptb (fst (urun l ptb)) u i _ Dtlb (urun_ok l ptb F) (urun_next l ptb i F C)); [|exact V].
    assert (G : forall k x t, Forall inputs_ok k -> Forall (fun z => inputs_ok (snd z)) t -> Forall (fun z => inputs_ok (snd z)) (fst (u_runs true 14 k x t))).
    { induction k as [|y k IH]; intros x t K T; cbn [u_runs fst]; [exact T|]. inversion K; subst. apply IH; [assumption|]. apply Forall_cons; assumption. }
    apply G; [|apply Forall_nil]. apply Forall_forall. intros x X. apply repeat_spec in X. subst x. exact V. }
  split; [exact V|]. split; [exact E|]. rewrite E. vm_compute. reflexivity.
Qed.

Print Assumptions c31_roundtrip.
Print Assumptions c31_response_kept.
Print Assumptions c31_widths.
Print Assumptions c31_slots_fit.
Print Assumptions c31_core_exact.
Print Assumptions c31_call_exact.
Print Assumptions c31_control_exact.
Print Assumptions c31_cycles_same.
Print Assumptions c31_registers_fit.
Print Assumptions c31_mapper_exact.
Print Assumptions c31_match_split.
Print Assumptions c31_generators.
Print Assumptions c31_wired_exact.
Print Assumptions c31_control_trace_refuted.

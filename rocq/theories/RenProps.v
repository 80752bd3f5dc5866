(** C01 and C02: register renaming.  [reach st g] ranges over every history of
    traffic the rest of the back end may send to Ren ([RenSpec.traffic_ok]);
    [g] is the list of instructions renamed but not yet retired or squashed. *)
From Verif Require Import Base RenModel RenSpec RenProofs.
From Coq Require Import Permutation.
Local Open Scope nat_scope.

(** A concrete history used by the examples: two bundles are renamed, the first
    one holding a write of x5 and a branch with tag 1; then the branch is found
    mispredicted, or the first instruction retires. *)
Definition ex_w5 := DSlot true true 5 1 2 false 0.
Definition ex_br := DSlot true false 0 5 6 true 1.
Definition ex_w5' := DSlot true true 5 5 5 false 0.
Definition ex_w6 := DSlot true true 6 5 0 false 0.
Definition ex_in d c m := RenIn d true c false false m.
Definition ex_i1 := ex_in [ex_w5; ex_br] [] None.
Definition ex_i2 := ex_in [ex_w5'; ex_w6] [] None.
Definition ex_i3 := ex_in [] [] None.
Definition ex_mis := ex_in [] [] (Some 1).
Definition ex_com := ex_in [] [CEntry true true 5 33 5 false; CEntry true false 0 0 0 false] None.
Definition ex_trap := RenIn [] true [CEntry true true 5 33 5 true] false true None.
Definition ex_st1 := ren_step ren_init ex_i1.
Definition ex_st2 := ren_step ex_st1 ex_i2.
Definition ex_st3 := ren_step ex_st2 ex_i3.
Definition ex_none : nat -> bool := fun _ => false.
Definition ex_g2 := g_step [] ex_i2 (leaving ex_st1 ex_i2) [] ex_none.
Definition ex_g3 := g_step ex_g2 ex_i3 (leaving ex_st2 ex_i3) [] ex_none.
Ltac ex_traffic :=
  split; [eexists; reflexivity|]; split;
  [left; split; [reflexivity|]; split; cbn; repeat constructor|];
  split; [apply Forall_forall; cbn; intros ? J; intuition (subst; intros V D; vm_compute in D |- *; try discriminate D; lia)|];
  split; [split; [vm_compute; repeat constructor; cbn; intuition discriminate
                 | vm_compute; repeat constructor] | vm_compute; auto].
Example ex_reach2 : reach ex_st2 ex_g2.
Proof.
  apply (reach_step ex_st1 [] ex_i2 [] ex_none); [|ex_traffic].
  apply (reach_step ren_init [] ex_i1 [] ex_none); [|ex_traffic]. constructor.
Qed.
Example ex_reach : reach ex_st3 ex_g3.
Proof. apply (reach_step ex_st2 ex_g2 ex_i3 [] ex_none); [exact ex_reach2 | ex_traffic]. Qed.
Example ex_traffic_mis : traffic_ok ex_st3 ex_g3 ex_mis [] ex_none.
Proof. ex_traffic. Qed.
Example ex_traffic_com : traffic_ok ex_st3 ex_g3 ex_com (firstn 2 ex_g3) ex_none.
Proof.
  split; [exists (skipn 2 ex_g3); reflexivity|].
  split. { left. split; [reflexivity|]. split; [cbn; repeat constructor|].
    cbn; repeat constructor; vm_compute; intros; try discriminate; auto. }
  split; [constructor|]. split; [split; [vm_compute; repeat constructor; cbn; intuition discriminate
                 | vm_compute; repeat constructor] | vm_compute; auto].
Qed.
Example ex_traffic_trap : traffic_ok ex_st3 ex_g3 ex_trap [] ex_none.
Proof.
  split; [exists ex_g3; reflexivity|]. split. { right. repeat split. cbn. repeat constructor. }
  split; [constructor|]. split; [split; [vm_compute; repeat constructor; cbn; intuition discriminate
                 | vm_compute; repeat constructor] | vm_compute; auto].
Qed.

(** *** C01 *)
(** Every physical register has exactly one owner: the committed table, one
    instruction in flight, or the free list.  None is lost, none owned twice. *)
Theorem c01_register_partition : forall st g, reach st g ->
  Permutation (map (arch_rat st) (seq 0 RAT_NUM) ++ taken g ++ free_regs st) (seq 0 PRF_NUM).
Proof. exact register_partition. Qed.
Print Assumptions c01_register_partition.
Example c01_register_partition_ex :
  reach ex_st3 ex_g3 /\ taken ex_g3 = [33; 34; 35] /\ length (free_regs ex_st3) = 28.
Proof. split; [exact ex_reach | vm_compute; auto]. Qed.

(** No two architectural registers share a physical register in the table used
    for renaming, and none of them is on the free list. *)
Theorem c01_spec_table_no_alias : forall st g, reach st g ->
  NoDup (map (spec_rat st) (seq 0 RAT_NUM) ++ free_regs st).
Proof. exact spec_table_no_alias. Qed.
Print Assumptions c01_spec_table_no_alias.
Example c01_spec_table_no_alias_ex :
  reach ex_st3 ex_g3 /\ spec_rat ex_st3 5 = 34 /\ spec_rat ex_st3 6 = 35.
Proof. split; [exact ex_reach | vm_compute; auto]. Qed.

(** Instructions leaving Ren take distinct registers from the front of the free
    list, owned by nobody. *)
Theorem c01_destinations_fresh : forall st g i, reach st g ->
  exists rest, free_regs st = taken (leaving st i) ++ rest /\
  NoDup (taken (leaving st i)) /\
  (forall p, In p (taken (leaving st i)) ->
     ~ In p (taken g) /\ ~ In p (map (spec_rat st) (seq 0 RAT_NUM)) /\
     ~ In p (map (arch_rat st) (seq 0 RAT_NUM))).
Proof. exact destinations_fresh. Qed.
Print Assumptions c01_destinations_fresh.
Example c01_destinations_fresh_ex :
  reach ex_st2 ex_g2 /\ taken (leaving ex_st2 ex_i3) = [34; 35].
Proof.
  split; [exact ex_reach2 | vm_compute; auto].
Qed.

(** Each source operand names the register of the newest older writer still in
    flight (same bundle included), else the committed register. *)
Theorem c01_operands_name_newest_writer : forall st g i k e, reach st g ->
  nth_error (leaving st i) k = Some e ->
  snd (g_src1 e) = newest (arch_rat st) (g ++ firstn k (leaving st i)) (fst (g_src1 e)) /\
  snd (g_src2 e) = newest (arch_rat st) (g ++ firstn k (leaving st i)) (fst (g_src2 e)).
Proof. exact operands_name_newest. Qed.
Print Assumptions c01_operands_name_newest_writer.
Example c01_operands_name_newest_writer_ex :
  exists e, nth_error (leaving ex_st2 ex_i3) 1 = Some e /\ g_src1 e = (5, 34).
Proof. eexists. split; vm_compute; reflexivity. Qed.

(** Slots leave in order, once each; the others stay (no slot is lost). *)
Theorem c01_slots_leave_in_order : forall st i, i_flush i = false -> i_mispred i = None ->
  exists n,
    left_slots st i = firstn n (filter s_valid (inst st)) /\
    (inst (ren_step st i) = i_dec i /\ n = length (filter s_valid (inst st)) \/
     filter s_valid (inst (ren_step st i)) = skipn n (filter s_valid (inst st))).
Proof. exact in_order_prefix. Qed.
Print Assumptions c01_slots_leave_in_order.
Example c01_slots_leave_in_order_ex :
  left_slots ex_st2 ex_i3 = [ex_w5'; ex_w6] /\ i_flush ex_i3 = false /\ i_mispred ex_i3 = None.
Proof. vm_compute; auto. Qed.

(** Ren stalls only for lack of registers: if the free list covers the bundle
    and Dispatch is ready, every valid slot leaves. *)
Theorem c01_no_spurious_stall : forall st g i, reach st g -> i_ready i = true ->
  length (filter (fun s => s_valid s && s_dest_en s) (inst st)) <= length (free_regs st) ->
  left_slots st i = filter s_valid (inst st).
Proof. exact no_spurious_stall. Qed.
Print Assumptions c01_no_spurious_stall.
Example c01_no_spurious_stall_ex :
  length (filter (fun s => s_valid s && s_dest_en s) (inst ex_st2)) = 2 /\
  length (free_regs ex_st2) = 30.
Proof. vm_compute; auto. Qed.

(** *** C02 *)
(** Misprediction: the table becomes the one implied by the instructions up to
    and including the branch; the registers of the squashed instructions, and
    only those, return to the front of the free list; the stage is emptied. *)
Theorem c02_mispredict_recovery : forall st g i done clear t, reach st g ->
  traffic_ok st g i done clear -> i_mispred i = Some t ->
  (forall a, spec_rat (ren_step st i) a = newest (arch_rat st) (upto_tag t g) a) /\
  (forall a, arch_rat (ren_step st i) a = arch_rat st a) /\
  (forall squashed, g = upto_tag t g ++ squashed ->
     free_regs (ren_step st i) = taken squashed ++ free_regs st) /\
  Forall (fun s => s_valid s = false) (inst (ren_step st i)).
Proof. exact mispredict_recovery. Qed.
Print Assumptions c02_mispredict_recovery.
Example c02_mispredict_recovery_ex :
  reach ex_st3 ex_g3 /\ traffic_ok ex_st3 ex_g3 ex_mis [] ex_none /\
  length (upto_tag 1 ex_g3) = 2 /\ spec_rat ex_st3 5 = 34 /\
  spec_rat (ren_step ex_st3 ex_mis) 5 = 33 /\ spec_rat (ren_step ex_st3 ex_mis) 6 = 6.
Proof. split; [exact ex_reach|]. split; [exact ex_traffic_mis | vm_compute; auto]. Qed.

(** Retirement: the committed table advances by exactly the retired prefix; an
    instruction that traps changes nothing. *)
Theorem c02_retirement : forall st g i done clear, reach st g ->
  traffic_ok st g i done clear ->
  (forall a, arch_rat (ren_step st i) a = newest (arch_rat st) done a).
Proof. exact retirement. Qed.
Print Assumptions c02_retirement.
Example c02_retirement_ex :
  traffic_ok ex_st3 ex_g3 ex_com (firstn 2 ex_g3) ex_none /\
  arch_rat ex_st3 5 = 5 /\ arch_rat (ren_step ex_st3 ex_com) 5 = 33.
Proof. split; [exact ex_traffic_com | vm_compute; auto]. Qed.

(** Global flush: the renaming table becomes the committed one (with this
    cycle's retirements), every other register becomes free. *)
Theorem c02_flush_recovery : forall st g i done clear, reach st g ->
  traffic_ok st g i done clear -> i_flush i = true ->
  (forall a, spec_rat (ren_step st i) a = newest (arch_rat st) done a) /\
  Permutation (map (spec_rat (ren_step st i)) (seq 0 RAT_NUM) ++ free_regs (ren_step st i))
              (seq 0 PRF_NUM) /\
  Forall (fun s => s_valid s = false) (inst (ren_step st i)).
Proof. exact flush_recovery. Qed.
Print Assumptions c02_flush_recovery.
Example c02_flush_recovery_ex :
  traffic_ok ex_st3 ex_g3 ex_trap [] ex_none /\ i_flush ex_trap = true /\
  spec_rat ex_st3 5 = 34 /\ spec_rat (ren_step ex_st3 ex_trap) 5 = 5.
Proof. split; [exact ex_traffic_trap | vm_compute; auto]. Qed.

(** The renaming table always is the replay of the instructions in flight over
    the committed table, so what a recovery restores is what a fresh replay of
    the surviving program would give. *)
Theorem c02_table_is_replay : forall st g, reach st g ->
  forall a, spec_rat st a = newest (arch_rat st) g a.
Proof. exact (fun st g R => v_spec st g (reach_inv st g R)). Qed.
Print Assumptions c02_table_is_replay.
Example c02_table_is_replay_ex :
  reach ex_st3 ex_g3 /\ newest (arch_rat ex_st3) ex_g3 5 = 34.
Proof. split; [exact ex_reach | vm_compute; auto]. Qed.

(** The map a misprediction restores is the one in force right after the branch
    was renamed: it is that map when the branch leaves Ren, ... *)
Theorem c02_branch_map_at_rename : forall st g i done clear k e t, reach st g ->
  traffic_ok st g i done clear -> i_flush i = false -> i_mispred i = None ->
  nth_error (leaving st i) k = Some e -> g_tag e = Some t ->
  let g' := g_step g i (leaving st i) done clear in
  forall a, newest (arch_rat (ren_step st i)) (upto_tag t g') a =
            newest (spec_rat st) (firstn (S k) (leaving st i)) a.
Proof. exact branch_map_at_rename. Qed.
Print Assumptions c02_branch_map_at_rename.
Example c02_branch_map_at_rename_ex :
  exists e, nth_error (leaving ex_st1 ex_i2) 1 = Some e /\ g_tag e = Some 1.
Proof. eexists. split; vm_compute; reflexivity. Qed.

(** ... and no later cycle in which the branch stays unresolved changes it. *)
Theorem c02_branch_map_stable : forall st g i done clear t, reach st g ->
  traffic_ok st g i done clear -> In t (tags g) -> ~ In t (tags (leaving st i)) ->
  let g' := g_step g i (leaving st i) done clear in
  In t (tags g') ->
  forall a, newest (arch_rat (ren_step st i)) (upto_tag t g') a =
            newest (arch_rat st) (upto_tag t g) a.
Proof. exact branch_map_stable. Qed.
Print Assumptions c02_branch_map_stable.
Example c02_branch_map_stable_ex :
  traffic_ok ex_st2 ex_g2 ex_i3 [] ex_none /\ In 1 (tags ex_g2) /\ ~ In 1 (tags (leaving ex_st2 ex_i3)) /\ In 1 (tags ex_g3).
Proof.
  split; [ex_traffic|]. split; [left; reflexivity|]. split; [vm_compute; auto | left; reflexivity].
Qed.

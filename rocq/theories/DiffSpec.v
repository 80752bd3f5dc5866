(** What the lock-step check is for: an instruction committed by the core is what the
    reference did. *)
From Verif Require Import Base CsrModel RefModel DiffModel.

(** An access to mip or sip by number. *)
Definition irq_access (i : Z) : Prop := i mod 128 = 0x73 /\ (i / 2 ^ 20 = 0x344 \/ i / 2 ^ 20 = 0x144).
(** The core wrote memory: address and bytes at their place in the word. *)
Definition wrote (k : commit) : Prop := k_store k = true /\ k_pfs k = false /\ k_qsup k = false.
Definition width (f3 : Z) : Z := if f3 =? 0 then 8 else if f3 =? 1 then 16 else 32.
Definition in_word (f3 pa v : Z) : Z := (v mod 2 ^ width f3 * 2 ^ (8 * (pa mod 4))) mod 2 ^ 32.
(** Where the core goes. *)
Definition goes_to (k : commit) : Z := if k_jump k || k_flush k then k_diag k else (k_pc k + 4) mod 2 ^ 32.

Definition driven (o : option bool) : bool := match o with Some _ => true | None => false end.

(** The reference state after an instruction is what the core committed.  The pending
    external and timer bits of mip are compared only if the instruction (of the
    reference) names mip or sip; then the driven ones must be 0.  The sip of the core is
    never compared, a store only if the reference stored. *)
Record same (s : ref) (k : commit) : Prop := {
  sm_pc : r_pc s = goes_to k;
  sm_inst : f_pfi (r_flags s) = false -> r_inst s = k_inst k;
  sm_faults : f_pfi (r_flags s) = k_pfi k /\ f_pfl (r_flags s) = k_pfl k /\ f_pfs (r_flags s) = k_pfs k;
  sm_gpr : forall i, 0 <= i < 32 -> r_gpr s i = k_gpr k i;
  sm_csr : forall c, c <> mip -> c <> sip -> r_csr s c = k_csr k c;
  sm_mip : forall b, ~ irq_access (r_inst s) -> b <> 7 -> b <> 11 -> Z.testbit (r_csr s mip) b = Z.testbit (k_csr k mip) b;
  sm_irq : irq_access (r_inst s) ->
    (forall b, Z.testbit (r_csr s mip) b =
       Z.testbit (k_csr k mip) b && negb ((b =? 7) && driven (k_tim k)) && negb ((b =? 11) && driven (k_ext k))) /\
    r_csr s sip = Z.land (r_csr s mip) 0x333;
  sm_store : r_store s = true -> wrote k /\ r_saddr s = k_qpa k /\ r_sdata s = in_word (k_qf3 k) (k_qpa k) (k_qdata k) }.

(** The reference is given the core's state instead of being run. *)
Definition resyncs (k : commit) : Prop :=
  k_intr k = true \/ k_skip k = true \/
  (k_mmio k = true /\ k_load k = true /\ k_pfl k = false) \/
  (k_mmio k = true /\ k_store k = true /\ k_pfs k = false) \/
  (wrote k /\ (k_qpav k = false \/ k_qdv k = false)) \/
  (irq_access (k_inst k) /\ (driven (k_ext k) = true \/ driven (k_tim k) = true)).

(** The reference alone: one call of exec for each commit, told its time and faults. *)
Definition told (sf : sfloat) (k : commit) : renv := mkre (k_now k) (Some (k_pfi k, k_pfl k, k_pfs k)) false sf.
Fixpoint refrun (sf : sfloat) (s : ref) (l : list commit) : res :=
  match l with [] => Done s | k :: l => match exec (told sf k) s with Done s => refrun sf s l | r => r end end.

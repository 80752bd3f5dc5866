(** What it takes for a stretch of the committed stream to be a run of the instruction
    set: the renamed core (OooModel), the load/store unit behind the reorder buffer
    (LcModel) and the path of the reorder buffer (CpModel) each keep a log; here the
    logs are those of the same instructions.  The instruction set is RefSpec. *)
From Verif Require Import Base IsaSpec MemSpec ExecModel MemProofs RenModel RenSpec RobModel RobSpec OooModel OooSpec LsuSpec LcModel CpModel.
From Verif Require Import RefSpec.

(** The three logs' view of one committed instruction, and what its units compute from the
    operands it read: address, data to store (given the old word), next address. *)
Record item := mkitem { m_fly : fly; m_ent : qent; m_ins : ins; m_adr : Z -> Z -> Z; m_dat : Z -> Z -> Z -> Z; m_nxt : Z -> Z -> Z; m_ops : list LcModel.mop }.

(** Registers as 32-bit words, x0 zero; 32 is the temporary of atomics. *)
Definition gprs (V : nat -> Z) : Prop := (forall r, 0 <= V r < 2 ^ 32) /\ V 0%nat = 0.
Definition gz (V : nat -> Z) (r : Z) : Z := V (Z.to_nat r).
Definition gint (V : nat -> Z) (r : Z) : Z := if (0 <=? r) && (r <? 32) then V (Z.to_nat r) else 0.
Definition memop (x : ins) : bool := match x with ILoad _ _ _ _ | IStore _ _ _ _ | IAmo _ _ _ _ _ => true | _ => false end.
Definition jumps (x : ins) : bool := match x with IJal _ _ | IJalr _ _ _ | IB _ _ _ _ => true | _ => false end.

(** The decoder and the units do what ExecModel says (decode and decompose of Idu, the units
    of Fu): destination, result, address, data, next address, from the operands alone. *)
Record does (p : Z) (m : item) : Prop := {
  do_wf : wf_ins (m_ins m);
  do_en : g_en (x_g (m_fly m)) = d_dest_en (decode (enc (m_ins m)));
  do_rd : d_dest_en (decode (enc (m_ins m))) = true -> Z.of_nat (g_dest (x_g (m_fly m))) = d_dest_areg (decode (enc (m_ins m)));
  do_val : memop (m_ins m) = false -> forall V v, gprs V -> exec_result (enc (m_ins m)) (gz V) p = Val v -> d_dest_en (decode (enc (m_ins m))) = true -> result V (m_fly m) = v;
  do_adr : forall V a, gprs V -> exec_addr (enc (m_ins m)) (gz V) = Some a -> m_adr m (src1 V (m_fly m)) (src2 V (m_fly m)) = a;
  do_dat : forall V old d, gprs V -> exec_store_data (enc (m_ins m)) (gz V) old = Some d -> m_dat m old (src1 V (m_fly m)) (src2 V (m_fly m)) = d;
  do_nxt : forall V pt npc r, gprs V -> exec_branch (enc (m_ins m)) (gz V) p pt npc = Some r -> m_nxt m (src1 V (m_fly m)) (src2 V (m_fly m)) = bo_target r;
  do_seq : jumps (m_ins m) = false -> forall v1 v2, m_nxt m v1 v2 = (p + 4) mod 2 ^ 32 }.

Section logs.
  Variable act : nat -> Z.
  (** It ran: it read its operands; the address it leads to, its result and its memory
      operations (cached, address not translated) are computed from them. *)
  Definition ran (m : item) : Prop := exists v1 v2, x_ops (m_fly m) = Some (v1, v2) /\ actE act (m_ent m) = m_nxt m v1 v2 /\
    let pa := m_adr m v1 v2 in let v := w_fun (x_w (m_fly m)) v1 v2 in
    m_ops m = match m_ins m with
      | ILoad _ _ _ _ => [MLoad pa (d_func3 (decode (enc (m_ins m)))) v]
      | IStore _ _ _ _ => [MStore (HS pa (d_func3 (decode (enc (m_ins m)))) (m_dat m 0 v1 v2) false false)]
      | IAmo _ _ _ _ _ => [MLoad pa 2 v; MStore (HS pa 2 (m_dat m v v1 v2) false false)]
      | _ => []
      end.
  (** Where the stretch is after the instructions [l]. *)
  Definition pc_after (x : Z) (l : list item) : Z := fold_left (fun _ m => actE act (m_ent m)) l x.
End logs.

(** What the program must do: aligned instruction, the fetched word is in memory (C58: no
    stale line), no rotate by zero (C12), aligned accesses away from the devices and from
    the last bytes of the address space. *)
Definition legal (a : ist) (x : ins) : Prop :=
  x_pc a mod 4 = 0 /\ load_bytes (x_mem a) (x_pc a) 4 = enc x /\ ~ rotate0 x (x_gpr a) /\ access_ok a x /\
  match x with ILoad f3 _ _ _ | IStore f3 _ _ _ => no_wrap (addr (x_gpr a) x) f3 | IAmo _ _ _ _ _ => no_wrap (addr (x_gpr a) x) 2 | _ => True end.

(** Memory after the operations [t]. *)
Definition mem_after (W : Z -> Z) (t : list LcModel.mop) : bmem := run_stores (filter LsuSpec.plain (stores_of t)) (bytes_of W).
(** The architectural state after the instructions [h] and the operations [t], about to execute [p]. *)
Definition arch (W : Z -> Z) (h : list fly) (t : list LcModel.mop) (p : Z) : ist := mkist (gint (seq_run zero h)) p (mem_after W t).

(** Sv32 address translation as the RISC-V privileged architecture defines it
    (volume II, "Sv32: Page-Based 32-bit Virtual-Memory Systems"), with accessed and
    dirty bits managed by software (Svade). *)
From Verif Require Import Base.

(** Page-table entries: bits V R W X U G A D from 0 up, physical page number above 10. *)
Definition pV (p : Z) : bool := Z.testbit p 0.
Definition pR (p : Z) : bool := Z.testbit p 1.
Definition pW (p : Z) : bool := Z.testbit p 2.
Definition pX (p : Z) : bool := Z.testbit p 3.
Definition pU (p : Z) : bool := Z.testbit p 4.
Definition pG (p : Z) : bool := Z.testbit p 5.
Definition pA (p : Z) : bool := Z.testbit p 6.
Definition pD (p : Z) : bool := Z.testbit p 7.
Definition ppn (p : Z) : Z := p / 2 ^ 10 mod 2 ^ 22.
(** Virtual addresses: two 10-bit page numbers and a 12-bit offset. *)
Definition vpn1 (va : Z) : Z := va / 2 ^ 22 mod 2 ^ 10.
Definition vpn0 (va : Z) : Z := va / 2 ^ 12 mod 2 ^ 10.
(** satp: mode, address-space identifier, physical page number of the root table. *)
Definition mode (satp : Z) : bool := Z.testbit satp 31.
Definition asid (satp : Z) : Z := satp / 2 ^ 22 mod 2 ^ 9.
Definition root (satp : Z) : Z := satp mod 2 ^ 22.

(** The walk: the entry found and its level, or a page fault. *)
Inductive outcome := Fault | Leaf (p level : Z).
Inductive verdict := VFault | VLeaf | VNext.
(** Steps 3-6 for the entry of a level; a leaf above level 0 must be aligned. *)
Definition judge (level p : Z) : verdict :=
  if negb (pV p) || (negb (pR p) && pW p) then VFault
  else if pR p || pX p then (if (level =? 1) && negb (ppn p mod 2 ^ 10 =? 0) then VFault else VLeaf)
  else if level =? 0 then VFault else VNext.
(** Addresses of the entries: 34-bit physical addresses. *)
Definition pte1_addr (satp va : Z) : Z := root satp * 4096 + vpn1 va * 4.
Definition pte0_addr (p va : Z) : Z := ppn p * 4096 + vpn0 va * 4.
(** [rd a d]: a read of the entry at [a] may return [d].  Entries are read at
    different times, hence a relation. *)
Definition walks (rd : Z -> Z -> Prop) (satp va : Z) (o : outcome) : Prop :=
  exists p1, rd (pte1_addr satp va) p1 /\
  match judge 1 p1 with
  | VFault => o = Fault
  | VLeaf => o = Leaf p1 1
  | VNext => exists p0, rd (pte0_addr p1 va) p0 /\ o = (if match judge 0 p0 with VLeaf => true | _ => false end then Leaf p0 0 else Fault)
  end.
(** The same when the tables do not change during the walk. *)
Definition walk (m : Z -> Z) (satp va : Z) : outcome :=
  let p1 := m (pte1_addr satp va) in
  match judge 1 p1 with
  | VFault => Fault
  | VLeaf => Leaf p1 1
  | VNext => let p0 := m (pte0_addr p1 va) in match judge 0 p0 with VLeaf => Leaf p0 0 | _ => Fault end
  end.
Lemma walks_walk m satp va o : walks (fun a d => d = m a) satp va o <-> o = walk m satp va.
Proof.
  unfold walks, walk. split.
  - intros (p1 & -> & H). destruct (judge 1 _); auto. destruct H as (p0 & -> & ->). now destruct (judge 0 _).
  - intros ->. eexists. split; [reflexivity|]. destruct (judge 1 _); auto. eexists. split; [reflexivity|]. now destruct (judge 0 _).
Qed.
Lemma walks_mono (r1 r2 : Z -> Z -> Prop) satp va o : (forall a d, r1 a d -> r2 a d) -> walks r1 satp va o -> walks r2 satp va o.
Proof. intros I (p1 & H1 & H). exists p1. split; auto. destruct (judge 1 p1); auto. destruct H as (p0 & H0 & E). eauto. Qed.

(** Pointer entries: bits D, A, U are reserved and, if set, a fault is due (step 3). *)
Definition reserved (p : Z) : bool := pD p || pA p || pU p.
Definition walk_strict (m : Z -> Z) (satp va : Z) : outcome :=
  match judge 1 (m (pte1_addr satp va)) with
  | VNext => if reserved (m (pte1_addr satp va)) then Fault else walk m satp va
  | _ => walk m satp va
  end.

(** Access kinds and privilege modes (0 U, 1 S, 3 M). *)
Inductive access := Fetch | Read | Write.
Record ctx := mkctx { x_priv : Z; x_sum : bool; x_mxr : bool; x_mprv : bool; x_mpp : Z }.
(** mstatus.MPRV: loads and stores use mode MPP *)
Definition eff (c : ctx) (k : access) : Z :=
  match k with Fetch => x_priv c | _ => if x_mprv c then x_mpp c else x_priv c end.
(** Step 5: rights; step 7: accessed and dirty bits. *)
Definition permits (p : Z) (k : access) (priv : Z) (sum mxr : bool) : bool :=
  (match k with Fetch => pX p | Read => pR p || (mxr && pX p) | Write => pW p end)
  && (if priv =? 0 then pU p else if priv =? 1 then negb (pU p) || (sum && match k with Fetch => false | _ => true end) else true)
  && pA p && (match k with Write => pD p | _ => true end).
(** Step 8: the 34-bit physical address. *)
Definition phys (p level va : Z) : Z :=
  if level =? 1 then ppn p / 2 ^ 10 * 2 ^ 22 + va mod 2 ^ 22 else ppn p * 2 ^ 12 + va mod 2 ^ 12.
(** The whole translation: an address, or a page fault ([None]). *)
Definition translation (o : outcome) (c : ctx) (k : access) (satp va : Z) : option Z :=
  if (eff c k =? 3) || negb (mode satp) then Some va
  else match o with
       | Fault => None
       | Leaf p level => if permits p k (eff c k) (x_sum c) (x_mxr c) then Some (phys p level va) else None
       end.

(** C40: what dispatch owes the reorder buffer, the issue queues and the load/store unit,
    stated on instruction kinds, program order and the history of wakeups. *)
From Verif Require Import Base DispModel.

(** Which queues an instruction needs a place in. *)
Definition reads_mem (x : inst) : Prop := ty x = LOAD \/ (ty x = AMO /\ f7 x / 4 <> SC).
Definition writes_mem (x : inst) : Prop := ty x = STORE \/ (ty x = AMO /\ f7 x / 4 <> LR).
Definition jumps (x : inst) : Prop := ty x = BR \/ ty x = JAL \/ ty x = JALR.
Definition needs (q : iqid) (x : inst) : Prop :=
  match q with
  | IQ_LD => reads_mem x
  | IQ_STA | IQ_STD => writes_mem x
  | IQ_BR => jumps x
  | IQ_INT => ~ reads_mem x /\ ~ writes_mem x /\ ty x <> BR
  end.
(** The instructions of a group that were dispatched, in program order. *)
Fixpoint chosen {A} (l : list A) (b : list bool) : list A :=
  match l, b with x :: l', true :: b' => x :: chosen l' b' | _ :: l', _ :: b' => chosen l' b' | _, _ => [] end.
Definition dispatched (o : out) : list inst := map ai (chosen (o_alloc o) (o_fire o)).
(** [sub P l l']: [l'] is the subsequence of [l] satisfying [P]. *)
Inductive sub {A} (P : A -> Prop) : list A -> list A -> Prop :=
| sub_nil : sub P [] []
| sub_in : forall x l l', P x -> sub P l l' -> sub P (x :: l) (x :: l')
| sub_out : forall x l l', ~ P x -> sub P l l' -> sub P (x :: l) l'.

(** A port array holds exactly the list [l], from port 0 upwards. *)
Definition ports_are {A} (m : nat -> option A) (l : list A) : Prop := forall k, m k = nth_error l k.

(** What each micro-operation must carry. *)
Definition same_place (x : inst) (u : uop) : Prop :=
  uid u = id x /\ urobi u = robi x /\ urobf u = robf x /\ ubrm u = brm x /\ ustqi u = stqi x /\ ustqf u = stqf x /\ uldqi u = ldqi x /\ udp u = dp x.
(** [waits u p b]: the micro-operation reads [p] and is marked waiting iff [b]. *)
Definition src1_is (u : uop) (e : bool) (p : Z) (b : bool) : Prop := us1e u = e /\ (e = true -> us1 u = p /\ us1b u = b).
Definition src2_is (u : uop) (e : bool) (p : Z) (b : bool) : Prop := us2e u = e /\ (e = true -> us2 u = p /\ us2b u = b).
Definition carries (q : iqid) (x : inst) (u : uop) : Prop :=
  same_place x u /\
  match q with
  | IQ_INT => uden u = den x /\ (if itype_beq (ty x) JAL || itype_beq (ty x) JALR then ulink u = true /\ us1e u = false /\ us2e u = false
              else ulink u = false /\ src1_is u (s1e x) (s1 x) (s1b x) /\ src2_is u (s2e x) (s2 x) (s2b x))
  | IQ_LD => uden u = den x /\ op u = UOP_LOAD /\ src1_is u (s1e x) (s1 x) (s1b x) /\ (ty x = AMO -> us2e u = false)
  | IQ_STA => op u = UOP_STA /\ src1_is u (s1e x) (s1 x) (s1b x) /\ us2e u = false /\
              (ty x = AMO -> uden u = (f7 x / 4 =? SC))
  | IQ_STD => op u = UOP_STD /\ (ty x = STORE -> us1e u = false /\ us2e u = true) /\ (s2e x = true -> src2_is u true (s2 x) (s2b x)) /\
              (* a read-modify-write other than a swap waits for the value its own load returns *)
              (ty x = AMO -> f7 x / 4 <> SC -> s1e x = true -> src1_is u true (dp x) (negb (f7 x / 4 =? SWAP))) /\
              (ty x = AMO -> uden u = false)
  | IQ_BR => (ty x = BR -> op u = UOP_BR) /\ (ty x <> BR -> op u = UOP_JUMP /\ uden u = false) /\
             (ty x = JALR -> src1_is u true (s1 x) (s1b x)) /\ (ty x = BR -> src1_is u (s1e x) (s1 x) (s1b x) /\ src2_is u (s2e x) (s2 x) (s2b x))
  end.

(** Completion groups: the write-back class each micro-operation reports to the ROB in. *)
Definition group_of (x : inst) (q : iqid) : Z :=
  match q with
  | IQ_INT | IQ_LD => 0
  | IQ_BR => 1
  | IQ_STA => if itype_beq (ty x) AMO && (f7 x / 4 =? SC) then 0 else 1     (* SC's result returns like a load *)
  | IQ_STD => 2
  end.

(** History of the physical registers: wakeups and dispatched destinations. *)
Inductive ev := Woke (p : Z) | Disp (p : Z).
Definition in_flight (h : list ev) (p : Z) : Prop := exists h1 h2, h = h1 ++ Disp p :: h2 /\ ~ In (Woke p) h2.
Definition dests (l : list inst) : list ev := map (fun x => Disp (dp x)) (filter den l).

(** Rename never hands over a destination on register zero (Idu.cpp:549-550). *)
Definition env_ok (e : env) : Prop := length (e_new e) = W /\ forall v x, In (v, x) (e_new e) -> den x = true -> da x <> 0.
(** The arrays of the class have DECODE_WIDTH elements. *)
Definition wf (st : dis) : Prop := length (slots st) = W /\ length (succ st) = W.
Definition ids (l : list (bool * inst)) : list Z := map (fun vx => id (snd vx)) (filter fst l).

(** Runs: instructions accepted from rename and not squashed here, instructions dispatched, register history. *)
Inductive reach : dis -> list Z -> list Z -> list ev -> Prop :=
| r_init : forall sl f c, (forall v x, In (v, x) sl -> v = false /\ den x = false) -> length sl = W -> length f = W -> reach (mkDis sl (fun _ => false) f c) [] [] []
| r_step : forall st A D h e o st', reach st A D h -> env_ok e -> cycle e st = (o, st') ->
    reach st'
      (if e_flush e || e_mispred e then D ++ map id (dispatched o)
       else A ++ (if o_ready o then ids (e_new e) else []))
      (D ++ map id (dispatched o))
      (h ++ map Woke (e_wake e) ++ dests (dispatched o)).

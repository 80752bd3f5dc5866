(** The instruction cache on top of the routing block, the data cache and main
    memory, over whole CPU cycles. *)
From Verif Require Import Base MemSpec MemModel DcModel DcSpec DcRound RtModel RtSpec.
From Verif Require IcModel IcSpec.

(** [f_r]: the probe answer the routing block left at the end of the last cycle;
    [f_ms k]: main memory at the start of each cycle since the read with id [k] was
    accepted (rv_simu_mmu_v2.cpp main loop: front_cycle, then the memory
    subsystem's comb_outputs, comb_inputs and seq). *)
Record fsys := mkfs { f_i : IcSpec.sys; f_m : msys; f_r : option (option Z); f_ms : nat -> list (Z -> Z) }.
Definition fsys0 (m : Z -> Z) : fsys := mkfs IcSpec.sys0 (msys0 m) None (fun _ => []).
Definition mem_of (z : fsys) : Z -> Z := y_mem (m_y (f_m z)).
Definition ms_now (z : fsys) (c : IcModel.cinp) : nat -> list (Z -> Z) :=
  fun k => if match IcModel.c_acc c with Some k' => Nat.eqb k' k | None => false end then [mem_of z] else mem_of z :: f_ms z k.

(** The rest of the instruction cache's surroundings.  Reads return, word by
    word, what main memory held at some cycle since they were accepted. *)
Record fenv (z : fsys) (c : IcModel.cinp) (second : bool) : Prop := mkfenv {
  fe_v : IcModel.c_v c = true -> IcModel.c_refetch c = false /\ exists hold, IcModel.glue_ready hold (IcSpec.y_ic (f_i z)) = true;
  fe_second : second = true -> IcModel.c_refetch c = false /\ IcModel.c_fencei c = false;
  fe_inval : IcModel.c_inval c = false;
  fe_tr : forall v p, IcModel.c_tr c v = IcModel.TOk p -> is_w 20 p;
  fe_acc : forall k, IcModel.c_acc c = Some k -> IcSpec.offered (f_i z) k <> None;
  fe_rsp : forall k l, IcModel.c_rsp c = Some (k, l) ->
           IcModel.c_acc c <> Some k /\
           exists a f, IcSpec.out_now (f_i z) c k = Some (a, f) /\
             forall n, 0 <= n < 16 -> exists m, In m (ms_now z c k) /\ l n = m (a / 4 + n);
  fe_dc : IcModel.c_dc c = f_r z }.

Inductive fstep (z : fsys) (c : IcModel.cinp) (second : bool) (i : rreq) : IcModel.mout -> rout -> fsys -> Prop :=
| fstep_intro : forall s' o1 o2 r g x',
    fenv z c second ->
    IcModel.ic_cycle c second (IcSpec.y_ic (f_i z)) = (s', o1, o2) ->
    rr_ic i = IcModel.o_probe o2 ->
    mcycle (f_m z) i r g x' ->
    fstep z c second i o1 r (mkfs (IcSpec.step_sys (f_i z) c second s' o1 o2) x' (ro_ic r) (ms_now z c)).
(** [freach z0 l z]: from [z0] to [z], [l] the states at the start of each cycle. *)
Inductive freach (z0 : fsys) : list fsys -> fsys -> Prop :=
| freach0 : freach z0 [] z0
| freachS : forall l z c b i o r z', freach z0 l z -> fstep z c b i o r z' -> freach z0 (l ++ [z]) z'.

(** Where a fetched word [d] of word address [x] may come from, in the cycles that
    start with the states of [l], [h] being the stores acknowledged in the end:
    main memory, or the data cache with the program's view of then (or an earlier
    view, if the line was waiting in a miss register at that time). *)
Definition source (m0 : Z -> Z) (l : list fsys) (h : list dstore) (x d : Z) : Prop :=
  (exists z, In z l /\ d = mem_of z x) \/
  (exists z j, In z l /\ (j <= length h)%nat /\ is_word (after_stores (bytes_of m0) (firstn j h)) (4 * x) d /\
     ((length (y_hist (m_y (f_m z))) <= j)%nat \/
      exists e, (e < 8)%nat /\ me_valid (ms_ent (d_ms (y_d (m_y (f_m z)))) e) = true /\ me_addr (ms_ent (d_ms (y_d (m_y (f_m z)))) e) / 64 = x / 16)).

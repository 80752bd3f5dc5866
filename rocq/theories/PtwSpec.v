(** The walker with the routing block and the data cache behind it, over whole CPU
    cycles (MemSubsystem.cpp:1006-1121, 1180-1187). *)
From Verif Require Import Base MemSpec DcModel DcSpec RtModel RtSpec PtwModel Sv32Spec.

Record vsys := mkv { v_m : msys; v_p : ptw }.
Definition vsys0 (m : Z -> Z) : vsys := mkv (msys0 m) ptw0.
Record vin := mkvi { vi_lsu : request; vi_ic : option Z; vi_port : client -> pin; vi_flush : client -> bool }.

(** A client asks only when it is shown ready, or in a cycle in which it is flushed
    (MemSubsystem.cpp:293-296, 316-321). *)
Definition polite (p : ptw) (i : vin) : Prop :=
  forall c, i_wreq (vi_port i c) <> None -> wready p c = true \/ vi_flush i c = true.
Definition asks (p1 : ptw) (i : vin) : rreq :=
  mkrr (vi_lsu i) (vi_ic i) (walk_read p1) (mem_read p1 Dtlb) (mem_read p1 Itlb).
Inductive vcycle (x : vsys) (i : vin) : vsys -> Prop :=
| vcycle_intro : forall p1 ro g m',
    polite (v_p x) i -> p1 = comb_begin (vi_port i) (v_p x) ->
    mcycle (v_m x) (asks p1 i) ro g m' ->
    vcycle x i (mkv m' (pseq (vi_flush i) (comb_finish g (ro_ev ro) (ro_wake ro) p1))).
(** Runs, with the cycles so far, the newest first. *)
Inductive vreach (m0 : Z -> Z) : list (vsys * vin) -> vsys -> Prop :=
| vreach0 : vreach m0 [] (vsys0 m0)
| vreachS : forall tr x i x', vreach m0 tr x -> vcycle x i x' -> vreach m0 ((x, i) :: tr) x'.

(** The newest request of a client, and the cycles from it on. *)
Fixpoint last_req (c : client) (tr : list (vsys * vin)) : option wreq :=
  match tr with
  | [] => None
  | (_, i) :: t => match i_wreq (vi_port i c) with Some q => Some q | None => last_req c t end
  end.
Fixpoint since (c : client) (tr : list (vsys * vin)) : list (vsys * vin) :=
  match tr with
  | [] => []
  | (x, i) :: t => (x, i) :: match i_wreq (vi_port i c) with Some _ => [] | None => since c t end
  end.
(** [d] is the word at the physical address [a] as the program saw it at some point
    since the request of [c] (or earlier, if the line was being fetched then: C49). *)
Definition entry_read (m0 : Z -> Z) (tr : list (vsys * vin)) (x : vsys) (c : client) (a d : Z) : Prop :=
  exists z i, In (z, i) (since c tr) /\ word_since m0 (v_m z) (v_m x) (w32 a) d.

Definition resp_of (q : wreq) (o : outcome) : wresp :=
  match o with Fault => mkwr true (q_va q) 0 0 | Leaf p l => mkwr false (q_va q) p l end.
(** Two outcomes that agree on the 32 bits of the entry. *)
Definition same_outcome (o o' : outcome) : Prop :=
  match o, o' with Fault, Fault => True | Leaf p l, Leaf p' l' => w32 p = w32 p' /\ l = l' | _, _ => False end.
(** The words at the addresses [A] have been [f] throughout the run. *)
Definition unchanged (m0 : Z -> Z) (x : vsys) (f : Z -> Z) (A : Z -> Prop) : Prop :=
  forall a j, A a -> (j <= length (y_hist (m_y (v_m x))))%nat -> is_word (after_stores (bytes_of m0) (firstn j (y_hist (m_y (v_m x))))) (w32 a) (f a).

(** The answer of [c] was taken, and it has not asked again. *)
Fixpoint consumed (c : client) (tr : list (vsys * vin)) : bool :=
  match tr with
  | [] => false
  | (x, i) :: t => match i_wreq (vi_port i c) with
                   | Some _ => false
                   | None => (i_wtake (vi_port i c) && match c_resp (pw_c (v_p x) c) with Some _ => true | None => false end) || consumed c t
                   end
  end.
(** Whose walk began last. *)
Definition begun (x : vsys) (i : vin) : option client :=
  if negb (pw_act (v_p x)) && pw_act (comb_begin (vi_port i) (v_p x)) then Some (pw_own (comb_begin (vi_port i) (v_p x))) else None.
Fixpoint last_begun (tr : list (vsys * vin)) : option client :=
  match tr with [] => None | (x, i) :: t => match begun x i with Some c => Some c | None => last_begun t end end.
(** The two page-table read ports of the TLBs themselves are not used
    (the TLBs read through the walker, MemSubsystem.cpp:291-338). *)
Definition no_mem (tr : list (vsys * vin)) : Prop := Forall (fun xi => forall c, i_mreq (vi_port (snd xi) c) = None) tr.

(** The private walker: [kreach k rs] where [rs] lists the reads accepted and, once
    it has come, what they returned (newest first); an answer is shown only for an
    accepted read. *)
Inductive kreach (va satp : Z) : fsm -> list (Z * option Z) -> Prop :=
| kreach0 : forall k, k_st k = KIdle -> forall k', kstart va satp k = Some k' -> kreach va satp k' []
| kreach_ask : forall k rs i k' a, kreach va satp k rs -> ktick i k = (k', Some a, false) -> kreach va satp k' ((a, None) :: rs)
| kreach_take : forall k rs a d i k', kreach va satp k ((a, None) :: rs) -> kp_resp i = Some d -> ktick i k = (k', None, true) ->
    kreach va satp k' ((a, Some d) :: rs)
| kreach_wait : forall k rs i k', kreach va satp k rs -> ktick i k = (k', None, false) -> kreach va satp k' rs.

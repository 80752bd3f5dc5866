(** The memory side over whole CPU cycles: the routing block in front of the data
    cache.  A CPU cycle is a main tick of the data-cache domain, in which the block
    passes last cycle's answers on and this cycle's requests in (MemSubsystem.cpp:
    comb_outputs, comb_inputs, seq), followed by one or more fast ticks. *)
From Verif Require Import Base MemSpec MemModel DcModel DcSpec DcRound RtModel.

Record msys := mkm { m_y : DcSpec.sys; m_rt : rst }.
Definition msys0 (m : Z -> Z) : msys := mkm (sys0 m) rst0.

(** Load/store-unit load ids have the top bit clear (MemUtils.h:158-161). *)
Definition lsu_id (q : option loadreq) : Prop := match q with Some l => 0 <= lq_id l < 2 ^ 31 | None => True end.
Definition lsu_ok (q : request) : Prop := lsu_id (rq_ld0 q) /\ lsu_id (rq_ld1 q).

Inductive mcycle (x : msys) (i : rreq) : rout -> option (owner * Z) -> msys -> Prop :=
| mcycle_intro : forall ti o y1 n y2 ro wait rq g rt,
    lsu_ok (rr_lsu i) ->
    step (m_y x) ti o y1 -> ti_clear ti = true ->
    comb_response (to_pend o) (m_rt x) = (ro, wait) ->
    comb_request i wait (m_rt x) = (rq, g, rt) -> ti_rq ti = rq ->
    fast y1 (S n) y2 ->
    mcycle x i ro g (mkm y2 rt).
Inductive mreach (m0 : Z -> Z) : msys -> Prop :=
| mreach0 : mreach m0 (msys0 m0)
| mreachS : forall x i r g x', mreach m0 x -> mcycle x i r g x' -> mreach m0 x'.

(** Who is served: the first in order of priority with a request, leaving out the
    one served in the cycle before. *)
Definition requests (i : rreq) : list (owner * option Z) :=
  [(OIcache, rr_ic i); (OWalk, rr_walk i); (ODtlb, rr_dtlb i); (OItlb, rr_itlb i)].
Fixpoint winner (last : owner) (l : list (owner * option Z)) : option (owner * Z) :=
  match l with
  | (o, Some a) :: t => if owner_eqb o last then winner last t else Some (o, a)
  | _ :: t => winner last t
  | [] => None
  end.
(** who was served in the last cycle *)
Definition served (x : msys) : option (owner * Z) :=
  match t_owner (m_rt x) with ONone => None | o => Some (o, t_addr (m_rt x)) end.
(** the flag of a page-table requester *)
Definition flag (o : owner) (t : three) : bool :=
  match o with ODtlb => p_dtlb t | OItlb => p_itlb t | OWalk => p_walk t | _ => false end.

Definition ldL (k : nat) (q : request) : option loadreq := match k with O => rq_ld0 q | _ => rq_ld1 q end.
Definition ansL (k : nat) (r : rout) : option loadresp := match k with O => ro_l0 r | _ => ro_l1 r end.

(** [d] is the word at [a] as the program saw it at some point from [x0] to [x2],
    or, if the line was being fetched at [x0], at some earlier point. *)
Definition word_since (m0 : Z -> Z) (x0 x2 : msys) (a d : Z) : Prop :=
  exists j, (j <= length (y_hist (m_y x2)))%nat /\
    is_word (after_stores (bytes_of m0) (firstn j (y_hist (m_y x2)))) a d /\
    ((length (y_hist (m_y x0)) <= j)%nat \/
     exists e, (e < 8)%nat /\ me_valid (ms_ent (d_ms (y_d (m_y x0))) e) = true /\ me_addr (ms_ent (d_ms (y_d (m_y x0))) e) / 64 = a / 64).

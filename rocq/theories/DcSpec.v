(** What the data-cache domain is supposed to be: a byte memory. *)
From Verif Require Import Base MemSpec MemModel DcModel.

(** A store request: word address (any byte of it), data and byte strobe. *)
Record dstore := mkds { ds_addr : Z; ds_data : Z; ds_strb : Z }.
Definition dapply (m : bmem) (s : dstore) : bmem :=
  fun x => if (x / 4 =? ds_addr s / 4) && Z.testbit (ds_strb s) (x mod 4)
           then (ds_data s / 256 ^ (x mod 4)) mod 256 else m x.
(** Memory after the stores of [l], oldest first. *)
Definition after_stores (m : bmem) (l : list dstore) : bmem := fold_left dapply l m.
(** [d] is the word of [m] at the word containing [a]. *)
Definition is_word (m : bmem) (a d : Z) : Prop :=
  forall k, 0 <= k < 4 -> (d / 256 ^ k) mod 256 = m (a / 4 * 4 + k).

(** ** The outside: main memory behind the AXI read and write channels.
    [y_mem] is main memory by word address; [y_wr] the accepted write (line
    address, line data) not yet answered; [y_rd] the accepted reads not yet
    answered, by id.  [y_hist] lists the stores answered HIT so far; [y_arr] is
    how many there were when the line now waiting in the fill register arrived. *)
Record sys := mksys { y_d : dst; y_mem : Z -> Z; y_wr : option (Z * (Z -> Z)); y_rd : nat -> option Z;
                      y_hist : list dstore; y_arr : nat }.
Definition sys0 (m : Z -> Z) : sys := mksys dst0 m None (fun _ => None) [] 0.

Definition wr_now (i : tick_in) (y : sys) : option (Z * (Z -> Z)) :=
  if ti_wacc i then match wb_axi_req (d_wb (y_d y)) with Some e => Some (we_addr e, we_data e) | None => None end
  else y_wr y.
Definition rd_now (i : tick_in) (y : sys) : nat -> option Z :=
  match ti_racc i with
  | Some id => fupd (y_rd y) id (match ms_axi_req (d_ms (y_d y)) with Some (_, a) => Some a | None => None end)
  | None => y_rd y
  end.

(** The AXI side's obligations at a tick that turns memory into [m']:
    it accepts only what is presented, answers only accepted writes, having
    performed them; memory changes nowhere else; read data is the line of memory. *)
Record axi_ok (y : sys) (i : tick_in) (m' : Z -> Z) : Prop := mkaxi {
  ax_wacc : ti_wacc i = true -> wb_axi_req (d_wb (y_d y)) <> None;
  ax_wresp : ti_wresp i = true -> wr_now i y <> None;
  ax_mem : forall x, (forall a d, wr_now i y = Some (a, d) -> x / 16 <> a / 64) -> m' x = y_mem y x;
  ax_done : ti_wresp i = true -> forall a d, wr_now i y = Some (a, d) -> forall k, 0 <= k < 16 -> m' (a / 64 * 16 + k) = d k;
  ax_racc : forall id, ti_racc i = Some id -> exists a, ms_axi_req (d_ms (y_d y)) = Some (id, a);
  ax_rresp : forall id d, ti_rresp i = Some (id, d) ->
             exists a, rd_now i y id = Some a /\ forall k, 0 <= k < 16 -> d k = m' (a / 64 * 16 + k) }.

(** Requests carry 32-bit addresses. *)
Definition lrq_ok (q : option loadreq) : Prop := match q with Some r => is_w 32 (lq_addr r) | None => True end.
Definition srq_ok (q : option storereq) : Prop := match q with Some r => is_w 32 (sq_addr r) | None => True end.
Definition rq_ok (r : request) : Prop := lrq_ok (rq_ld0 r) /\ lrq_ok (rq_ld1 r) /\ srq_ok (rq_st0 r) /\ srq_ok (rq_st1 r).

(** ** What happened in a tick, read off the responses *)
(** a store answered HIT in stage 2 *)
Definition raw_done (slot : option (storereq * bool)) (r : option storeresp) : list dstore :=
  match slot, r with
  | Some (q, _), Some p => match sp_replay p with HIT => [mkds (sq_addr q) (sq_data q) (sq_strb q)] | _ => [] end
  | _, _ => []
  end.
(** the response waiting before forwarding: this tick's, else the latched one *)
Definition pre {A} (raw held : option A) : option A := match raw with Some _ => raw | None => held end.
(** a waiting store response turned into HIT by the arriving line *)
Definition fwd_done (before after : option storeresp) (m : option (Z * Z * Z)) : list dstore :=
  match before, after, m with
  | Some p, Some p', Some (a, d, st) =>
      match sp_replay p, sp_replay p' with
      | HIT, _ => [] | _, HIT => [mkds a d st] | _, _ => []
      end
  | _, _, _ => []
  end.
Definition new_stores (s : dst) (o : tick_out) : list dstore :=
  let p := d_pend s in
  fwd_done (pre (to_t0 o) (la_st0 p)) (la_st0 (to_pend o)) (la_ms0 (to_pend o)) ++
  fwd_done (pre (to_t1 o) (la_st1 p)) (la_st1 (to_pend o)) (la_ms1 (to_pend o)) ++
  raw_done (s_st0 (d_s s)) (to_t0 o) ++ raw_done (s_st1 (d_s s)) (to_t1 o).

(** The line of a read response is taken this tick. *)
Definition read_taken (i : tick_in) (o : tick_out) : bool :=
  match ti_rresp i with Some _ => to_rready o | None => false end.

Inductive step (y : sys) (i : tick_in) : tick_out -> sys -> Prop :=
| step_intro : forall m' s' o,
    axi_ok y i m' -> rq_ok (ti_rq i) -> tick i (y_d y) = (s', o) ->
    step y i o
      (mksys s' m' (if ti_wresp i then None else wr_now i y)
         (match ti_rresp i with Some (id, _) => if to_rready o then fupd (rd_now i y) id None else rd_now i y | None => rd_now i y end)
         (y_hist y ++ new_stores (y_d y) o)
         (if read_taken i o then length (y_hist y) else y_arr y)).

Inductive reach (m0 : Z -> Z) : sys -> Prop :=
| reach0 : reach m0 (sys0 m0)
| reachS : forall y i o y', reach m0 y -> step y i o y' -> reach m0 y'.

(** Memory as the program sees it. *)
Definition view (m0 : Z -> Z) (y : sys) : bmem := after_stores (bytes_of m0) (y_hist y).

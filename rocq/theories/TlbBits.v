(** The bit vectors through which the class TlbMmu calls the TLB logic, and the split of
    that logic into smaller generators: back-end/Lsu/include/TlbMmuKernel.h:196-575,
    654-970, 1168-1546 and the twin codec of the class, back-end/Lsu/TlbMmu.cpp:44-385.
    A bit array with its cursor is the list of the bits from the cursor on; both codecs
    write and read the same fields in the same order, so one definition stands for both. *)
From Verif Require Import Base PtwModel TlbModel.

Definition bits := list bool.
(** write_uint :233-238, read_uint :216-226: least significant bit first *)
Fixpoint enc (n : nat) (v : Z) : bits := match n with O => [] | S k => Z.odd v :: enc k (Z.shiftr v 1) end.
Fixpoint val (l : bits) : Z := match l with [] => 0 | b :: l => Z.b2z b + 2 * val l end.
Definition rd (n : nat) (l : bits) : Z * bits := (val (firstn n l), skipn n l).
Definition rdb (l : bits) : bool * bits := (hd false l, tl l).
(** slot_width :196-206 *)
Fixpoint width_loop (fuel : nat) (v : Z) : nat :=
  match fuel with O => O | S f => if 0 <? v then S (width_loop f (Z.shiftr v 1)) else O end.
Definition slot_width (entries : Z) : nat := width_loop 32 ((if 0 <? entries then entries else 1) - 1).
(** :245-253 *)
Definition pack_pte (p : Z) : Z := Z.lor (Z.shiftl (Z.land (Z.shiftr p 10) 4194303) 8) (Z.land p 255).
Definition unpack_pte (y : Z) : Z := Z.lor (w32 (Z.shiftl (Z.shiftr y 8) 10)) (Z.land y 255).

(** :259-283 *)
Definition enc_entry (e : entry) : bits :=
  e_valid e :: e_glob e :: enc 9 (e_asid e) ++ enc 1 (e_level e) ++ enc 10 (e_vpn1 e) ++ enc 10 (e_vpn0 e) ++ enc 22 (e_ppn e) ++ enc 8 (e_perm e).
Definition dec_entry (l : bits) : entry * bits :=
  let '(v, l) := rdb l in let '(g, l) := rdb l in let '(a, l) := rd 9 l in let '(lv, l) := rd 1 l in
  let '(v1, l) := rd 10 l in let '(v0, l) := rd 10 l in let '(p, l) := rd 22 l in let '(m, l) := rd 8 l in
  (mke v g a lv v1 v0 p m, l).
(** :285-297 *)
Definition enc_look (k : look) : bits := l_hit k :: enc_entry (l_entry k).
Definition dec_look (l : bits) : look * bits := let '(h, l) := rdb l in let '(e, l) := dec_entry l in (mklk h e, l).
(** :299-324 *)
Definition enc_walk (w : wregs) : bits :=
  w_act w :: w_sent w :: enc 32 (w_va w) ++ enc 2 (w_type w) ++ enc 32 (w_satp w) ++ enc 2 (w_priv w) ++ w_mxr w :: w_sum w :: [].
Definition dec_walk (l : bits) : wregs * bits :=
  let '(a, l) := rdb l in let '(s, l) := rdb l in let '(va, l) := rd 32 l in let '(t, l) := rd 2 l in
  let '(sp, l) := rd 32 l in let '(p, l) := rd 2 l in let '(m, l) := rdb l in let '(u, l) := rdb l in
  (mkw a s va t sp p m u, l).
(** :326-348 *)
Definition enc_refill (n : Z) (f : refill) : bits :=
  f_valid f :: enc_entry (f_entry f) ++ enc (slot_width n) (f_slot f) ++ enc (slot_width n) (f_next f).
Definition dec_refill (n : Z) (l : bits) : refill * bits :=
  let '(v, l) := rdb l in let '(e, l) := dec_entry l in let '(s, l) := rd (slot_width n) l in let '(x, l) := rd (slot_width n) l in
  (mkrf v e s x, l).
(** encode_walk_port_view TlbMmu.cpp:164-173, decode_walk_port_view :350-362: a page
    number and the entry without its two software bits *)
Definition enc_view (ready rv : bool) (r : wresp) : bits :=
  ready :: rv :: r_fault r :: enc 20 (Z.shiftr (r_va r) 12) ++ enc 30 (pack_pte (r_pte r)) ++ enc 1 (r_level r).
Definition dec_view (l : bits) : bool * bool * wresp * bits :=
  let '(a, l) := rdb l in let '(v, l) := rdb l in let '(f, l) := rdb l in let '(va, l) := rd 20 l in
  let '(p, l) := rd 30 l in let '(lv, l) := rd 1 l in
  (a, v, mkwr f (w32 (Z.shiftl va 12)) (unpack_pte p) lv, l).
(** :364-381 *)
Definition enc_req (v : bool) (q : wreq) : bits := v :: enc 32 (q_va q) ++ enc 32 (q_satp q) ++ enc 2 (q_type q).
Definition dec_req (l : bits) : bool * wreq * bits :=
  let '(v, l) := rdb l in let '(va, l) := rd 32 l in let '(sp, l) := rd 32 l in let '(t, l) := rd 2 l in (v, mkwq va sp t, l).

(** Core input and output :423-515.  The capacity is not packed but passed beside. *)
Definition enc_cin (n : Z) (i : cin) : bits :=
  ci_valid i :: enc 32 (ci_va i) ++ enc 2 (ci_type i) ++ enc 32 (ci_satp i) ++ enc 2 (ci_priv i) ++
  ci_mxr i :: ci_sum i :: ci_mprv i :: enc 2 (ci_mpp i) ++ enc_look (ci_look i) ++ enc_walk (ci_walk i) ++ enc_refill n (ci_refill i) ++
  enc (slot_width n) (ci_repl i) ++ enc_view (ci_ready i) (ci_rv i) (ci_resp i).
Definition dec_cin (n : Z) (l : bits) : cin :=
  let '(v, l) := rdb l in let '(va, l) := rd 32 l in let '(t, l) := rd 2 l in let '(sp, l) := rd 32 l in let '(p, l) := rd 2 l in
  let '(mx, l) := rdb l in let '(su, l) := rdb l in let '(mp, l) := rdb l in let '(pp, l) := rd 2 l in
  let '(k, l) := dec_look l in let '(w, l) := dec_walk l in let '(f, l) := dec_refill n l in let '(rp, l) := rd (slot_width n) l in
  let '(a, rv, r, l) := dec_view l in
  mkci v va t sp p mx su mp pp k w f rp (if 0 <? n then n else 1) a rv r.
Definition enc_cout (n : Z) (o : cout) : bits :=
  co_valid o :: enc 2 (co_result o) ++ enc 32 (co_pa o) ++ enc 3 (co_retry o) ++ enc_walk (co_walk o) ++ enc_refill n (co_refill o) ++
  enc_req (co_rq o) (co_req o) ++ co_cons o :: enc 3 (co_src o) ++ enc 8 (co_lev o) ++ enc 8 (co_perm o).
Definition dec_cout (n : Z) (l : bits) : cout * bits :=
  let '(v, l) := rdb l in let '(r, l) := rd 2 l in let '(pa, l) := rd 32 l in let '(y, l) := rd 3 l in
  let '(w, l) := dec_walk l in let '(f, l) := dec_refill n l in let '(rq, q, l) := dec_req l in let '(c, l) := rdb l in
  let '(s, l) := rd 3 l in let '(lv, l) := rd 8 l in let '(pm, l) := rd 8 l in
  (mkco v r pa y w f rq q c s lv pm, l).
(** core_io_generator :1173-1178 and run_core_lane_via_io_generator TlbMmu.cpp:277-285 *)
Definition core_io (n : Z) (pi : bits) : bits := enc_cout n (core (dec_cin n pi)).
Definition core_via (n : Z) (i : cin) : cout := fst (dec_cout n (core_io n (enc_cin n i))).

(** Top input: encode_top_input_bits TlbMmu.cpp:287-309, decoded at :1416-1446; the kind
    of an access is not packed but follows from the port's position :1211-1222 *)
Definition kind_of (dtlb : bool) (ldus : nat) (i : nat) : Z := if dtlb then (if Nat.ltb i ldus then 1 else 2) else 0.
Definition enc_port (p : pport) : bits := pp_valid p :: enc 32 (pp_va p) ++ enc_look (pp_look p).
Definition dec_port (k : Z) (l : bits) : pport * bits :=
  let '(v, l) := rdb l in let '(va, l) := rd 32 l in let '(e, l) := dec_look l in (mkpp v va k e, l).
Fixpoint dec_ports (dtlb : bool) (ldus : nat) (i n : nat) (l : bits) : list pport * bits :=
  match n with
  | O => ([], l)
  | S n => let '(p, l) := dec_port (kind_of dtlb ldus i) l in let '(ps, l) := dec_ports dtlb ldus (S i) n l in (p :: ps, l)
  end.
Definition enc_common (n : Z) (t : tin) : bits :=
  let c := ti_csr t in
  ti_flush t :: ti_cancel t :: enc 32 (s_satp c) ++ enc 2 (s_priv c) ++ s_mxr c :: s_sum c :: s_mprv c :: enc 2 (s_mpp c) ++
  enc_walk (ti_walk t) ++ enc_refill n (ti_refill t) ++ enc (slot_width n) (ti_repl t) ++ enc_view (ti_ready t) (ti_rv t) (ti_resp t).
Definition enc_tin (n : Z) (t : tin) : bits := enc_common n t ++ concat (map enc_port (ti_ports t)).
Definition dec_common (n : Z) (l : bits) : tin * bits :=
  let '(fl, l) := rdb l in let '(ca, l) := rdb l in let '(sp, l) := rd 32 l in let '(p, l) := rd 2 l in
  let '(mx, l) := rdb l in let '(su, l) := rdb l in let '(mp, l) := rdb l in let '(pp, l) := rd 2 l in
  let '(w, l) := dec_walk l in let '(f, l) := dec_refill n l in let '(rp, l) := rd (slot_width n) l in
  let '(a, rv, r, l) := dec_view l in
  (mkti fl ca (mkcs sp p mx su mp pp) w f rp a rv r [], l).
Definition with_ports (t : tin) (ps : list pport) : tin :=
  mkti (ti_flush t) (ti_cancel t) (ti_csr t) (ti_walk t) (ti_refill t) (ti_repl t) (ti_ready t) (ti_rv t) (ti_resp t) ps.
Definition dec_tin (n : Z) (np : nat) (dtlb : bool) (ldus : nat) (l : bits) : tin :=
  let '(t, l) := dec_common n l in with_ports t (fst (dec_ports dtlb ldus 0 np l)).
(** Top output :1224-1232, 1448-1545, decode_top_output_bits TlbMmu.cpp:351-373 *)
Definition enc_pout (p : pout) : bits :=
  po_valid p :: enc 2 (po_result p) ++ enc 32 (po_pa p) ++ enc 3 (po_retry p) ++ enc 3 (po_src p) ++ enc 8 (po_lev p) ++ enc 8 (po_perm p).
Definition dec_pout (l : bits) : pout * bits :=
  let '(v, l) := rdb l in let '(r, l) := rd 2 l in let '(pa, l) := rd 32 l in let '(y, l) := rd 3 l in
  let '(s, l) := rd 3 l in let '(lv, l) := rd 8 l in let '(pm, l) := rd 8 l in (mkpo v r pa y s lv pm, l).
Fixpoint dec_pouts (n : nat) (l : bits) : list pout * bits :=
  match n with O => ([], l) | S n => let '(p, l) := dec_pout l in let '(ps, l) := dec_pouts n l in (p :: ps, l) end.
Definition enc_tcommon (n : Z) (tf : bool) (w : wregs) (f : refill) (rq : bool) (q : wreq) (c k : bool) : bits :=
  tf :: enc_walk w ++ enc_refill n f ++ enc_req rq q ++ c :: k :: [].
Definition enc_tout (n : Z) (o : tout) : bits :=
  enc_tcommon n (to_tflush o) (to_walk o) (to_refill o) (to_rq o) (to_req o) (to_cons o) (to_cflush o) ++ concat (map enc_pout (to_ports o)).
Definition dec_tout (n : Z) (np : nat) (l : bits) : tout :=
  let '(tf, l) := rdb l in let '(w, l) := dec_walk l in let '(f, l) := dec_refill n l in let '(rq, q, l) := dec_req l in
  let '(c, l) := rdb l in let '(k, l) := rdb l in mkto tf w f rq q c k (fst (dec_pouts np l)).
Definition top_io (n : Z) (np : nat) (dtlb : bool) (ldus : nat) (pi : bits) : bits :=
  enc_tout n (top (if 0 <? n then n else 1) (dec_tin n np dtlb ldus pi)).
(** run_top_via_io_generator TlbMmu.cpp:1023-1038 *)
Definition top_via (n : Z) (np : nat) (dtlb : bool) (ldus : nat) (t : tin) : tout :=
  dec_tout n np (top_io n np dtlb ldus (enc_tin n t)).

(** ** The same logic in pieces, each a function on bit vectors *)
(** The core with everything computed beforehand: build_core_output_mapper_input
    :928-970 and core_output_mapper_comb :786-915 *)
Record mapin := mkmi {
  mi_valid : bool; mi_va : Z; mi_type : Z; mi_satp : Z; mi_priv : Z; mi_mxr : bool; mi_sum : bool; mi_walk : wregs; mi_refill : refill;
  mi_ready : bool; mi_rv : bool; mi_fault : bool; mi_page : bool; mi_ppn : Z; mi_perm : Z; mi_lev : Z;
  mi_hit : bool; mi_hok : bool; mi_hpa : Z; mi_hlev : Z; mi_hperm : Z; mi_pok : bool; mi_same : bool; mi_slot : Z; mi_next : Z }.
Definition build_map (i : cin) : mapin :=
  let priv := effective_priv (ci_type i) (ci_priv i) (ci_mprv i) (ci_mpp i) in
  let h := match hit_of i with Some e => e | None => entry0 end in
  let hit := match hit_of i with Some _ => true | None => false end in
  let cap := if 0 <? ci_cap i then ci_cap i else 1 in let slot := ci_repl i mod cap in
  let r := ci_resp i in let w := ci_walk i in
  mkmi (ci_valid i) (ci_va i) (ci_type i) (ci_satp i) priv (ci_mxr i) (ci_sum i) w (ci_refill i)
       (ci_ready i) (ci_rv i) (r_fault r) (Z.shiftr (r_va r) 12 =? Z.shiftr (w_va w) 12)
       (Z.land (Z.shiftr (r_pte r) 10) 4194303) (Z.land (r_pte r) 255) (Z.land (r_level r) 1)
       hit (hit && check_perm (Z.land (e_perm h) 255) (ci_type i) priv (ci_sum i) (ci_mxr i))
       (compose_paddr (ci_va i) h) (e_level h) (Z.land (e_perm h) 255)
       (check_perm (Z.land (r_pte r) 255) (ci_type i) priv (ci_sum i) (ci_mxr i))
       ((Z.shiftr (w_va w) 12 =? Z.shiftr (ci_va i) 12) && (w_satp w =? ci_satp i))
       slot ((slot + 1) mod cap).
Definition map_comb (i : mapin) : cout :=
  let w := mi_walk i in let f := mi_refill i in
  if negb (mi_valid i) then mkco false 0 0 0 w f false wreq0 false 0 255 0
  else if (mi_priv i =? 3) || (Z.land (mi_satp i) 2147483648 =? 0) then mkco true 0 (mi_va i) 0 w f false wreq0 false 1 255 0
  else if mi_hit i then
    (if negb (mi_hok i) then mkco true 1 0 0 w f false wreq0 false 3 (mi_hlev i) (Z.land (mi_hperm i) 255)
     else mkco true 0 (mi_hpa i) 0 w f false wreq0 false 2 (mi_hlev i) (Z.land (mi_hperm i) 255))
  else
    let retry reason w' rq q cons := mkco true 2 0 reason w' f rq q cons 4 255 0 in
    if w_act w && negb (mi_same i) then retry 1 w false wreq0 false
    else
      let w := if w_act w then w else mkw true false (mi_va i) (mi_type i) (mi_satp i) (mi_priv i) (mi_mxr i) (mi_sum i) in
      if negb (w_sent w) then
        if negb (mi_ready i) then retry 2 w false wreq0 false
        else retry 3 (mkw (w_act w) true (w_va w) (w_type w) (w_satp w) (w_priv w) (w_mxr w) (w_sum w)) true (mkwq (w_va w) (w_satp w) (w_type w)) false
      else if negb (mi_rv i) then retry 3 w false wreq0 false
      else if negb (mi_page i) then retry 3 w false wreq0 true
      else
        let done result pa f' := mkco true result pa 0 wregs0 f' false wreq0 true 4 (Z.land (mi_lev i) 1) (Z.land (mi_perm i) 255) in
        if mi_fault i then done 1 0 f
        else if negb (mi_pok i) then done 1 0 f
        else
          let e := mke true (nz (Z.land (mi_perm i) 32)) (sv32_asid (mi_satp i)) (Z.land (mi_lev i) 1)
                       (Z.land (Z.shiftr (mi_va i) 22) 1023) (Z.land (Z.shiftr (mi_va i) 12) 1023) (Z.land (mi_ppn i) 4194303) (Z.land (mi_perm i) 255) in
          done 0 (compose_paddr (mi_va i) e) (mkrf true e (mi_slot i) (mi_next i)).
(** Codec of the mapper input :517-573 *)
Definition enc_map (n : Z) (i : mapin) : bits :=
  mi_valid i :: enc 32 (mi_va i) ++ enc 2 (mi_type i) ++ enc 32 (mi_satp i) ++ enc 2 (mi_priv i) ++ mi_mxr i :: mi_sum i ::
  enc_walk (mi_walk i) ++ enc_refill n (mi_refill i) ++ mi_ready i :: mi_rv i :: mi_fault i :: mi_page i ::
  enc 22 (mi_ppn i) ++ enc 8 (mi_perm i) ++ enc 1 (mi_lev i) ++ mi_hit i :: mi_hok i :: enc 32 (mi_hpa i) ++ enc 1 (mi_hlev i) ++ enc 8 (mi_hperm i) ++
  mi_pok i :: mi_same i :: enc (slot_width n) (mi_slot i) ++ enc (slot_width n) (mi_next i).
Definition dec_map (n : Z) (l : bits) : mapin :=
  let '(v, l) := rdb l in let '(va, l) := rd 32 l in let '(t, l) := rd 2 l in let '(sp, l) := rd 32 l in let '(p, l) := rd 2 l in
  let '(mx, l) := rdb l in let '(su, l) := rdb l in let '(w, l) := dec_walk l in let '(f, l) := dec_refill n l in
  let '(a, l) := rdb l in let '(rv, l) := rdb l in let '(ft, l) := rdb l in let '(pg, l) := rdb l in
  let '(pn, l) := rd 22 l in let '(pm, l) := rd 8 l in let '(lv, l) := rd 1 l in let '(h, l) := rdb l in let '(hk, l) := rdb l in
  let '(ha, l) := rd 32 l in let '(hl, l) := rd 1 l in let '(hp, l) := rd 8 l in let '(ok, l) := rdb l in let '(sm, l) := rdb l in
  let '(s, l) := rd (slot_width n) l in let '(x, l) := rd (slot_width n) l in
  mkmi v va t sp p mx su w f a rv ft pg pn pm lv h hk ha hl hp ok sm s x.
(** core_output_mapper_io_generator :917-924 *)
Definition map_io (n : Z) (pi : bits) : bits := enc_cout n (map_comb (dec_map n pi)).

(** Small generators :654-784: each reads its operands off the vector *)
Definition eff_priv_io (pi : bits) : bits :=
  let '(t, l) := rd 2 pi in let '(p, l) := rd 2 l in let '(m, l) := rdb l in let '(pp, l) := rd 2 l in enc 2 (effective_priv t p m pp).
Definition entry_match_io (pi : bits) : bool :=
  let '(e, l) := dec_entry pi in let '(va, l) := rd 32 l in let '(a, l) := rd 9 l in entry_matches e va a.
Definition asid_match_io (pi : bits) : bool :=
  let '(g, l) := rdb pi in let '(a, l) := rd 9 l in let '(b, l) := rd 9 l in g || (a =? b).
Definition vpn1_match_io (pi : bits) : bool := let '(a, l) := rd 10 pi in let '(b, l) := rd 10 l in a =? b.
Definition vpn0_match_io (pi : bits) : bool :=
  let '(lv, l) := rdb pi in let '(a, l) := rd 10 l in let '(b, l) := rd 10 l in lv || (a =? b).
Definition match_select_io (pi : bits) : bool :=
  let '(v, l) := rdb pi in let '(a, l) := rdb l in let '(b, l) := rdb l in let '(c, l) := rdb l in v && a && b && c.
Definition page_match_io (pi : bits) : bool := let '(a, l) := rd 20 pi in let '(b, l) := rd 20 l in a =? b.
Definition satp_match_io (pi : bits) : bool := let '(a, l) := rd 32 pi in let '(b, l) := rd 32 l in a =? b.
Definition repl_next_io (n : Z) (pi : bits) : bits :=
  let cap := if 0 <? n then n else 1 in let '(p, l) := rd (slot_width n) pi in
  enc (slot_width n) (p mod cap) ++ enc (slot_width n) ((p mod cap + 1) mod cap).
Definition paddr_io (pi : bits) : bits := let '(va, l) := rd 32 pi in let '(e, l) := dec_entry l in enc 32 (compose_paddr va e).
Definition hit_select_io (pi : bits) : bits :=
  let '(k, l) := dec_look pi in let '(v, l) := rdb l in let '(e, l) := dec_entry l in let '(m, l) := rdb l in
  if v && m then true :: enc_entry e else if l_hit k then true :: enc_entry (l_entry k) else false :: enc_entry entry0.

(** The top in pieces: control :1309-1372, core input mapper :1252-1307, accumulate
    :1374-1404, post :1406-1414; state codec :1168-1250 *)
Definition enc_acc (n : Z) (s : acc) : bits :=
  enc_walk (a_walk s) ++ enc_refill n (a_refill s) ++ a_ready s :: a_rv s :: enc_req (a_rq s) (a_req s) ++ a_cons s :: [].
Definition dec_acc (n : Z) (l : bits) : acc * bits :=
  let '(w, l) := dec_walk l in let '(f, l) := dec_refill n l in let '(a, l) := rdb l in let '(v, l) := rdb l in
  let '(rq, q, l) := dec_req l in let '(c, l) := rdb l in (mkac w f a v rq q c, l).
Definition control_io (n : Z) (pi : bits) : bits :=
  let '(t, l) := dec_common n pi in
  (ti_flush t || ti_cancel t) :: enc_acc n (mkac (ti_walk t) (ti_refill t) (ti_ready t) (ti_rv t) false wreq0 false) ++
  (if ti_flush t then enc_tcommon n true wregs0 refill0 false wreq0 false true
   else if ti_cancel t then enc_tcommon n false wregs0 (ti_refill t) false wreq0 false true
   else enc_tcommon n false (ti_walk t) (ti_refill t) false wreq0 false false).
Definition input_map_io (n : Z) (pi : bits) : bits :=
  let '(t, l) := dec_common n pi in
  let '(v, l) := rdb l in let '(va, l) := rd 32 l in let '(k, l) := rd 2 l in let '(e, l) := dec_look l in
  enc_cin n (lane_in (if 0 <? n then n else 1) t (mkpp v va k e) (mkac (ti_walk t) (ti_refill t) (ti_ready t) (ti_rv t) false wreq0 false)).
Definition accumulate_io (n : Z) (pi : bits) : bits :=
  let '(s, l) := dec_acc n pi in let '(o, _) := dec_cout n l in
  enc_acc n (accumulate s o) ++ enc_pout (port_out o).
Definition post_io (n : Z) (pi : bits) : bits :=
  let '(s, _) := dec_acc n pi in enc_tcommon n false (a_walk s) (a_refill s) (a_rq s) (a_req s) (a_cons s) false.
(** The pieces wired together.  The netlist that does so is not in the repository; this is
    the wiring their interfaces call for: control, then for each port the input mapper
    (fed with the common inputs, their walk and refill state replaced by the accumulated
    one), the core and the accumulator, then post. *)
Definition lane_bits (n : Z) (t : tin) (p : pport) (s : acc) : bits :=
  enc_common n (mkti (ti_flush t) (ti_cancel t) (ti_csr t) (a_walk s) (a_refill s) (ti_repl t) (a_ready s) (a_rv s) (ti_resp t) []) ++
  pp_valid p :: enc 32 (pp_va p) ++ enc 2 (pp_type p) ++ enc_look (pp_look p).
Fixpoint wire_lanes (n : Z) (t : tin) (ps : list pport) (s : bits) : bits * bits :=
  match ps with
  | [] => (s, [])
  | p :: ps =>
      let o := core_io n (input_map_io n (lane_bits n t p (fst (dec_acc n s)))) in
      let r := accumulate_io n (s ++ o) in
      let k := length s in let '(s', os) := wire_lanes n t ps (firstn k r) in (s', skipn k r ++ os)
  end.
Definition wired (n : Z) (np : nat) (dtlb : bool) (ldus : nat) (pi : bits) : bits :=
  let t := dec_tin n np dtlb ldus pi in
  let c := control_io n pi in
  let k := length (enc_acc n (mkac wregs0 refill0 false false false wreq0 false)) in
  if hd false c then skipn (1 + k) c ++ concat (map (fun _ => enc_pout pout0) (ti_ports t))
  else let '(s, os) := wire_lanes n t (ti_ports t) (firstn k (tl c)) in post_io n s ++ os.

(** top_comb TlbMmu.cpp:861-933: the class's own version, each port through the packed
    core; its port outputs are initialised field by field (TlbMmu.h, level 0xff) *)
Fixpoint wide_lanes (n : Z) (t : tin) (ps : list pport) (s : acc) : acc * list pout :=
  match ps with
  | [] => (s, [])
  | p :: ps => let o := core_via n (lane_in n t p s) in
               let '(s', os) := wide_lanes n t ps (accumulate s o) in (s', port_out o :: os)
  end.
Definition wide_top (n : Z) (t : tin) : tout :=
  let idle := mkpo false 0 0 0 0 255 0 in
  if ti_flush t then mkto true wregs0 refill0 false wreq0 false true (map (fun _ => idle) (ti_ports t))
  else if ti_cancel t then mkto false wregs0 (ti_refill t) false wreq0 false true (map (fun _ => idle) (ti_ports t))
  else
    let '(s, os) := wide_lanes n t (ti_ports t) (mkac (ti_walk t) (ti_refill t) (ti_ready t) (ti_rv t) false wreq0 false) in
    mkto false (a_walk s) (a_refill s) (a_rq s) (a_req s) (a_cons s) false os.

(** The class's calls as they are made, through the vectors (two load and two store ports
    on the data side, one port on the instruction side): TlbModel's flush, cancel,
    translate and translate_lsu_ports with run_top_via_io_generator. *)
Definition np_of (dtlb : bool) : nat := if dtlb then 4%nat else 1%nat.
Definition flush_b (dtlb : bool) (t : tlb) (b : comb) : comb :=
  apply_top (top_via ENTRIES (np_of dtlb) dtlb 2 (common_in t b true false csrs0 (repeat no_port (np_of dtlb)))) b.
Definition cancel_b (dtlb : bool) (t : tlb) (b : comb) : comb :=
  let b := fst (consume true t b) in
  apply_top (top_via ENTRIES (np_of dtlb) dtlb 2 (common_in t b false true csrs0 (repeat no_port (np_of dtlb)))) b.
Definition translate_b (c : csrs) (va : Z) (t : tlb) (b : comb) : comb * list pout :=
  let o := top_via ENTRIES 1 false 2 (common_in t b false false c [port_of t c (0, Some va)]) in
  (apply_top o b, to_ports o).
Definition ports_b (c : csrs) (lds sts : list (option Z)) (t : tlb) (b : comb) : comb * list pout :=
  let '(b, consumed) := consume false t b in
  let b := if consumed then mkcb wregs0 (b_refill b) (b_flush b) (b_ready b) (b_resp b) (b_req b) (b_take b) (b_kill b) else b in
  let o := top_via ENTRIES 4 true 2 (common_in t b false false c (map (port_of t c) (map (pair 1) lds ++ map (pair 2) sts))) in
  (apply_top o b, to_ports o).
Definition icycle_b (i : iop) (t : tlb) (b : comb) : comb * list pout :=
  let b := if io_flush i then flush_b false t b else b in
  let b := if io_cancel i then cancel_b false t b else b in
  match io_va i with Some va => translate_b (io_csr i) va t b | None => (b, []) end.
Definition dcycle_b (d : dop) (t : tlb) (b : comb) : comb * list pout :=
  match d with
  | DFlush => (flush_b true t b, [])
  | DCancel => (cancel_b true t b, [])
  | DPorts c lds sts => ports_b c lds sts t b
  end.

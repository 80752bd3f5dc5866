(** One direction predictor bank, front-end/BPU/dir_predictor/TAGE_top.h: base and
    tagged tables, the small and the multi-table corrector, the loop predictor.

    Build options: TN_MAX 4, 64 entries per table, 8-bit tags, 3-bit counters,
    2-bit usefulness, ENABLE_TAGE_USE_ALT_ON_NA, ENABLE_TAGE_SC_LITE with
    TAGE_SC_USE_WEAK_ONLY and TAGE_SC_STRONG_ONLY_OVERRIDE, ENABLE_TAGE_SC_L with
    ENABLE_TAGE_SC_PATH, ENABLE_TAGE_LOOP_PRED, no SRAM_DELAY_ENABLE.

    Left out: the registers that no output depends on (state, latches, delayed
    read, sram_prng_state, rd.mem); all are written with zeros or copied.  Tables
    are functions, read and written below their sizes, except that the loop table
    is read at the index given with the training (never above 63 when that came
    from a prediction). *)
From Verif Require Import Base.
Local Open Scope Z_scope.

Definition TN : nat := 4.
Definition IDXM : Z := 63.     (* TAGE_IDX_MASK, TAGE_BASE_IDX_MASK *)
Definition TAGM : Z := 255.    (* TAGE_TAG_MASK *)
Definition SCL_N : nat := 8.   (* BPU_SCL_META_NTABLE *)
Definition SCL_BIAS : Z := 256. (* kSclSumBias *)
Definition THETA_INIT : Z := 18. Definition THETA_MIN : Z := 6. Definition THETA_MAX : Z := 64.
Definition MARGIN : Z := 4.
Definition LITER : Z := 4095.  (* iter_max *)

Definition zupd {A} (f : Z -> A) (i : Z) (v : A) : Z -> A := fun j => if Z.eqb j i then v else f j.

(** sat_inc/dec, TAGE_top.h:80-126, 143-164, 203-211 *)
Definition sinc (m v : Z) : Z := if m <=? v then m else v + 1.
Definition sdec (v : Z) : Z := if v =? 0 then 0 else v - 1.

Record lentry := LEntry { le_valid : bool; le_tag : Z; le_cnt : Z; le_lim : Z; le_conf : Z; le_age : Z; le_dir : bool }.

Record tg := Tg {
  t_lfsr : nat -> bool; t_rst : Z; t_ua : Z;
  t_base : Z -> Z; t_tag : nat -> Z -> Z; t_cnt : nat -> Z -> Z; t_use : nat -> Z -> Z;
  t_sc : Z -> Z; t_scl : nat -> Z -> Z; t_theta : Z; t_loop : Z -> lentry }.

(** reset, l.750-805; memset(sc_ctr_table, 1), memset(scl_table, 32) *)
Definition tg0 : tg :=
  Tg (fun i => Nat.eqb i 3) 0 7 (fun _ => 0) (fun _ _ => 0) (fun _ _ => 0) (fun _ _ => 0)
     (fun _ => 1) (fun _ _ => 32) THETA_INIT (fun _ => LEntry false 0 0 0 0 0 false).

(** A prediction request: pc_pred_in (the pc divided by 4), ghr_in, fh_in, path_in *)
Record preq := PReq { rq_pc : Z; rq_ghr : nat -> bool; rq_fh : nat -> nat -> Z; rq_path : Z }.
(** What is answered, and comes back with the training *)
Record meta := Meta {
  m_pred : bool; m_alt : bool; m_pcpn : nat; m_altpcpn : nat; m_idx : nat -> Z; m_tag : nat -> Z;
  m_scu : bool; m_scp : bool; m_scsum : Z; m_scidx : nat -> Z;
  m_lu : bool; m_lh : bool; m_lp : bool; m_lidx : Z; m_ltag : Z }.
Record train := Train { tr_pc : Z; tr_dir : bool; tr_meta : meta }.

(* ------------------------------------------------------------------ *)
(** * Indices *)

(** tage_pred_index_comb, l.1612-1624 *)
Definition base_idx (pc : Z) : Z := Z.land (Z.shiftr pc 2) IDXM.
Definition tn_tag (r : preq) (i : nat) : Z :=
  Z.land (Z.lxor (Z.lxor (rq_fh r 1%nat i) (rq_fh r 2%nat i)) (Z.shiftr (rq_pc r) 2)) TAGM.
Definition tn_idx (r : preq) (i : nat) : Z :=
  Z.land (Z.lxor (rq_fh r 0%nat i) (Z.shiftr (rq_pc r) 2)) IDXM.
(** tage_sc_idx_from_pc, l.128-133 *)
Definition sc_idx (pc : Z) : Z :=
  let v := Z.shiftr pc 2 in let v := Z.lxor v (Z.shiftr v 7) in let v := Z.lxor v (Z.shiftr v 13) in Z.land v 1023.
(** scl_fold_ghr_idx, scl_fold_path_idx, l.171-199; the index bits are 6 *)
Definition fold_ghr (g : nat -> bool) (n : nat) : Z :=
  Z.land (fold_left (fun f i => Z.lxor (Z.lxor f (Z.shiftl (b2z (g i)) (Z.of_nat i mod 6)))
                                       (Z.shiftl (b2z (g i)) ((Z.of_nat i * 7) mod 6))) (seq 0 n) 0) 63.
Definition fold_path (p : Z) (n : nat) : Z :=
  let e := Nat.min n 16 in
  let p := Z.land (Z.land p 65535) (Z.shiftl 1 (Z.of_nat e) - 1) in
  Z.land (fold_left (fun f i => let b := Z.land (Z.shiftr p (Z.of_nat i)) 1 in
                                Z.lxor (Z.lxor f (Z.shiftl b (Z.of_nat i mod 6))) (Z.shiftl b ((Z.of_nat i * 5 + 3) mod 6)))
                    (seq 0 e) 0) 63.
(** l.860-882 and again l.983-1004 *)
Definition scl_hist (t : nat) : nat := nth t [0; 4; 8; 16; 32; 64; 128; 256]%nat 0%nat.
Definition scl_path (t : nat) : nat := nth t [0; 4; 8; 12; 16; 20; 24; 28]%nat 0%nat.
Definition scl_idx (r : preq) (t : nat) : Z :=
  let f := fold_ghr (rq_ghr r) (scl_hist t) in
  let m := Z.shiftr (rq_pc r) 2 in
  let m := Z.lxor m (Z.shiftr m 11) in
  let m := Z.lxor m (Z.shiftr m 19) in
  let m := Z.lxor (Z.lxor m f) (Z.shiftl f 1) in
  let p := fold_path (rq_path r) (scl_path t) in
  let m := Z.lxor (Z.lxor (Z.lxor m p) (Z.shiftl p 2)) (Z.shiftr p 1) in
  Z.land m 63.
(** loop_idx_from_pc, loop_tag_from_pc, l.205-213 *)
Definition loop_idx (pc : Z) : Z := Z.land (Z.lxor (Z.lxor (Z.shiftr pc 2) (Z.shiftr pc 11)) (Z.shiftr pc 19)) 63.
Definition loop_tag (pc : Z) : Z := Z.land (Z.lxor (Z.shiftr pc 2) (Z.shiftr pc 14)) 4095.

(* ------------------------------------------------------------------ *)
(** * Prediction *)

(** The two descending searches of tage_pred_select_comb, l.1640-1651 *)
Fixpoint longest (hit : nat -> bool) (n : nat) : nat :=
  match n with O => TN | S m => if hit m then m else longest hit m end.

Section PRED.
  Variables (s : tg) (r : preq).
  Definition rd_tag (i : nat) : Z := t_tag s i (tn_idx r i).
  Definition rd_cnt (i : nat) : Z := t_cnt s i (tn_idx r i).
  Definition rd_use (i : nat) : Z := t_use s i (tn_idx r i).
  Definition hit (i : nat) : bool := rd_tag i =? tn_tag r i.
  Definition base_pred : bool := 2 <=? t_base s (base_idx (rq_pc r)).
  Definition pcpn : nat := longest hit TN.
  Definition altpcpn : nat := longest hit pcpn.
  Definition alt_pred : bool := if (altpcpn <? TN)%nat then 4 <=? rd_cnt altpcpn else base_pred.
  Definition prov_cnt : Z := rd_cnt pcpn.
  (** TAGE_PROVIDER_WEAK_LOW..HIGH = 3..3, TAGE_SC_PROVIDER_WEAK_LOW..HIGH = 3..4 *)
  Definition weak (c : Z) : bool := (3 <=? c) && (c <=? 3).
  Definition weak_sc (c : Z) : bool := (3 <=? c) && (c <=? 4).
  (** tage_pred_select_comb, l.1660-1699 *)
  Definition sel_pred : bool :=
    if (pcpn <? TN)%nat then
      let pp := 4 <=? prov_cnt in
      let res := if weak prov_cnt && (rd_use pcpn <=? 0) then (if t_ua s <=? 8 then alt_pred else pp) else pp in
      if xorb pp alt_pred && weak_sc prov_cnt then
        (if t_sc s (sc_idx (rq_pc r)) =? 0 then alt_pred
         else if t_sc s (sc_idx (rq_pc r)) =? 3 then pp else res)
      else res
    else base_pred.
  (** tage_comb, l.983-1040: the multi-table corrector *)
  Definition scl_sum : Z := fold_left (fun a t => (a + t_scl s t (scl_idx r t)) mod 2 ^ 16) (seq 0 SCL_N) 0.
  Definition absdiff (a b : Z) : Z := if b <=? a then a - b else b - a.
  Definition scl_used : bool :=
    (pcpn <? TN)%nat && weak prov_cnt && xorb (SCL_BIAS <=? scl_sum) (4 <=? prov_cnt)
    && ((t_theta s + MARGIN) mod 2 ^ 16 <=? absdiff scl_sum SCL_BIAS).
  Definition pred1 : bool := if scl_used then SCL_BIAS <=? scl_sum else sel_pred.
  (** l.1053-1083: the loop predictor *)
  Definition lent : lentry := t_loop s (loop_idx (rq_pc r)).
  Definition lhit : bool := le_valid lent && (le_tag lent =? loop_tag (rq_pc r)).
  Definition lsure : bool := lhit && (5 <=? le_conf lent).
  Definition lexit : bool := negb (le_lim lent =? 0) && (le_cnt lent + 1 =? le_lim lent).
  Definition lpred : bool := if lexit then negb (le_dir lent) else le_dir lent.
  Definition lused : bool := lsure && (pcpn <? TN)%nat && weak prov_cnt.
  Definition predict : meta :=
    Meta (if lused then lpred else pred1) alt_pred pcpn altpcpn (tn_idx r) (tn_tag r)
         scl_used (SCL_BIAS <=? scl_sum) scl_sum (scl_idx r)
         lused lhit (lsure && lpred) (loop_idx (rq_pc r)) (loop_tag (rq_pc r)).
End PRED.

(* ------------------------------------------------------------------ *)
(** * Training *)

(** lsfr_update_comb, l.1876-1890 *)
Definition lfsr_next (l : nat -> bool) : nat -> bool :=
  fun i => match i with O => xorb (l 0%nat) (l 3%nat) | S j => l j end.
Definition lfsr_rand (l : nat -> bool) : Z := let n := lfsr_next l in Z.lor (Z.shiftl (b2z (n 0%nat)) 1) (b2z (n 1%nat)).

Section UPD.
  Variables (s : tg) (u : train).
  Definition tdir : bool := tr_dir u.
  Definition tm : meta := tr_meta u.
  Definition mi (i : nat) : Z := Z.land (m_idx tm i) IDXM.
  Definition u_cnt (i : nat) : Z := t_cnt s i (mi i).
  Definition u_use (i : nat) : Z := t_use s i (mi i).
  Definition tp : nat := m_pcpn tm.
  Definition prov : bool := (tp <? TN)%nat.
  Definition raw : bool := 4 <=? u_cnt tp.                   (* provider_pred_raw *)
  Definition prov_used : bool := negb (m_scu tm || m_lu tm).
  Definition alt_used : bool := prov_used && Bool.eqb (m_pred tm) (m_alt tm).

  (** tage_update_comb, l.1703-1873.  The provider's usefulness and counter *)
  Definition prov_use : option Z :=
    if negb prov_used then Some (if Bool.eqb raw tdir then sinc 3 (u_use tp) else sdec (u_use tp))
    else if negb alt_used then Some (if Bool.eqb (m_pred tm) tdir then sinc 3 (u_use tp) else sdec (u_use tp))
    else if xorb raw tdir && Bool.eqb (m_alt tm) tdir then Some (sdec (u_use tp))
    else None.
  Definition prov_cnt_new : Z := if tdir then sinc 7 (u_cnt tp) else sdec (u_cnt tp).
  (** use_alt_ctr *)
  Definition ua_next : Z :=
    if prov && weak (u_cnt tp) && (u_use tp <=? 0) && xorb raw (m_alt tm)
    then let pc := Bool.eqb raw tdir in let ac := Bool.eqb (m_alt tm) tdir in
         if xorb pc ac then (if ac then (if t_ua s <=? 0 then 0 else t_ua s - 1) else sinc 15 (t_ua s)) else t_ua s
    else t_ua s.
  Definition base_next : Z := let b := t_base s (base_idx (tr_pc u)) in if tdir then sinc 3 b else sdec b.
  (** allocation *)
  Definition wrong : bool := xorb (m_pred tm) tdir.
  Definition start : nat := if (tp =? TN)%nat then 0%nat else S tp.
  Definition allocs : bool := wrong && ((tp <=? TN - 2)%nat || (tp =? TN)%nat).
  Definition free : list nat := filter (fun i => u_use i =? 0) (seq start (TN - start)).
  Definition victim : option nat :=
    match free with
    | [] => None
    | j :: k :: _ => Some (if lfsr_rand (t_lfsr s) mod 3 =? 0 then k else j)
    | [j] => Some j
    end.
  (** the write requests of table [i]: counter, usefulness, tag *)
  Definition w_cnt (i : nat) : option Z :=
    let w := if prov && (i =? tp)%nat then Some prov_cnt_new else None in
    if allocs then match victim with Some v => if (i =? v)%nat then Some (if tdir then 4 else 3) else w | None => w end else w.
  Definition w_use (i : nat) : option Z :=
    let w := if prov && (i =? tp)%nat then prov_use else None in
    if allocs then match victim with
                   | Some v => if (i =? v)%nat then Some 0 else w
                   | None => if (start <=? i)%nat then Some (sdec (u_use i)) else w
                   end
    else w.
  Definition w_tag (i : nat) : option Z :=
    if allocs then match victim with Some v => if (i =? v)%nat then Some (m_tag tm v) else None | None => None end else None.
  (** the small corrector *)
  Definition w_sc : option Z :=
    if prov && prov_used && xorb raw (m_alt tm) && weak_sc (u_cnt tp) then
      let pc := Bool.eqb raw tdir in let ac := Bool.eqb (m_alt tm) tdir in
      if xorb pc ac then Some (if pc then sinc 3 (t_sc s (sc_idx (tr_pc u))) else sdec (t_sc s (sc_idx (tr_pc u)))) else None
    else None.
  (** one row of usefulness bits is thinned every 2048 trainings, l.1862-1872, 1156-1173 *)
  Definition rst_now : bool := Z.land (t_rst s) 2047 =? 0.
  Definition rst_row : Z := Z.land (Z.land (Z.shiftr (t_rst s) 11) 4095) IDXM.
  Definition rst_lsb : bool := Z.odd (Z.shiftr (t_rst s) 23).
  Definition thin (v : Z) : Z := if rst_lsb then Z.land v 1 else Z.land v 2.

  (** the multi-table corrector, l.1175-1222 *)
  Definition scl_low : bool := absdiff (m_scsum tm) SCL_BIAS <? t_theta s.
  Definition scl_wrong : bool := xorb (m_scp tm) tdir.
  Definition scl_next (t : nat) : Z -> Z :=
    if m_scu tm && (scl_wrong || scl_low) then
      let i := Z.land (m_scidx tm t) 63 in
      zupd (t_scl s t) i (if tdir then sinc 63 (t_scl s t i) else sdec (t_scl s t i))
    else t_scl s t.
  Definition theta_next : Z :=
    if m_scu tm then
      if scl_wrong && negb scl_low then (if t_theta s <? THETA_MAX then t_theta s + 1 else t_theta s)
      else if negb scl_wrong && scl_low then (if THETA_MIN <? t_theta s then t_theta s - 1 else t_theta s)
      else t_theta s
    else t_theta s.

  (** the loop predictor, l.1224-1272 *)
  Definition loop_enter (e : lentry) (tag : Z) : lentry :=
    if negb (le_valid e) || negb (le_tag e =? tag) then LEntry true tag 0 0 0 7 true else e.
  Definition loop_step (e : lentry) (dir : bool) : lentry :=
    if Bool.eqb dir (le_dir e) then
      LEntry (le_valid e) (le_tag e) (sinc LITER (le_cnt e)) (le_lim e) (le_conf e) (le_age e) (le_dir e)
    else if negb (le_lim e =? 0) && (le_cnt e =? le_lim e) then
      LEntry (le_valid e) (le_tag e) 0 (le_lim e) (sinc 7 (le_conf e)) 7 (le_dir e)
    else LEntry (le_valid e) (le_tag e) 0 (le_cnt e) (sdec (le_conf e)) (le_age e) (le_dir e).
  Definition loop_next : lentry := loop_step (loop_enter (t_loop s (m_lidx tm)) (Z.land (m_ltag tm) 4095)) tdir.

  (** tage_seq_write, l.1502-1595 *)
  Definition apply (f : Z -> Z) (i : Z) (w : option Z) : Z -> Z := match w with Some v => zupd f i v | None => f end.
  Definition use_after (i : nat) : Z -> Z :=
    let f := apply (t_use s i) (mi i) (w_use i) in
    let conflict := (match w_use i with Some _ => true | None => false end) && (mi i =? rst_row) in
    if rst_now && negb conflict then zupd f rst_row (thin (t_use s i rst_row)) else f.
  Definition update : tg :=
    Tg (lfsr_next (t_lfsr s)) ((t_rst s + 1) mod 2 ^ 32) ua_next
       (if prov then t_base s else zupd (t_base s) (base_idx (tr_pc u)) base_next)
       (fun i => apply (t_tag s i) (mi i) (w_tag i))
       (fun i => apply (t_cnt s i) (mi i) (w_cnt i))
       use_after
       (apply (t_sc s) (sc_idx (tr_pc u)) w_sc)
       scl_next theta_next
       (zupd (t_loop s) (Z.land (m_lidx tm) 63) loop_next).
End UPD.

(** One cycle: the prediction reads the tables before the training writes them. *)
Definition tcycle (s : tg) (r : option preq) (u : option train) : tg * option meta :=
  (match u with Some u => update s u | None => s end, match r with Some r => Some (predict s r) | None => None end).

(** What front_cycle (rv_simu_mmu_v2.cpp:1150-1160) passes to the back end and so
    back to the training: not the fields of the multi-table corrector and of the
    loop predictor. *)
Definition shipped (m : meta) : meta :=
  Meta (m_pred m) (m_alt m) (m_pcpn m) (m_altpcpn m) (m_idx m) (m_tag m)
       false false 0 (fun _ => 0) false false false 0 0.

(** C37: device side effects of the reference CPU. *)
From Verif Require Import Base BaseLemmas CsrModel ExecModel RefModel RefSpec RefExecProofs RefStepProofs RefExecProps RefCsrProps RefTrapProps.
Ltac Zify.zify_post_hook ::= Z.div_mod_to_equations.
#[local] Opaque Z.pow Z.land Z.lor Z.lxor Z.shiftl Z.shiftr Z.ldiff.

(** What a store of [d] to the physical address [pa] does to the devices, newest first:
    a byte to the transmit register is printed; 7 or 5 to the interrupt-enable register
    raises the transmit interrupt or reports receive-ready; 10 to the claim register completes it. *)
Definition effects (pa d : Z) : list effect :=
  (if (pa =? 0x0c201004) && (d mod 256 =? 10) then [Complete] else []) ++
  (if (pa =? 0x10000001) && (d mod 256 =? 5) then [Ready] else []) ++
  (if (pa =? 0x10000001) && (d mod 256 =? 7) then [Raise] else []) ++
  (if pa =? 0x10000000 then [Putc (d mod 256)] else []).
Lemma byte_land d : Z.land d 255 = d mod 256.
Proof. change 255 with (Z.ones 8). rewrite Z.land_ones by lia. reflexivity. Qed.
Lemma word_dev e s a d : r_dev (store_word e s a d) = r_dev s.
Proof. unfold store_word. cbv zeta. repeat match goal with |- context [if ?b then _ else _] => destruct b end; reflexivity. Qed.
Lemma word_sd e s a d : r_sdata (store_word e s a d) = r_sdata s /\ r_saddr (store_word e s a d) = r_saddr s.
Proof. unfold store_word. cbv zeta. repeat match goal with |- context [if ?b then _ else _] => destruct b end; split; reflexivity. Qed.
Lemma store_dev e s : r_dev (store_data e s) = effects (r_saddr s) (r_sdata s) ++ r_dev s.
Proof.
  unfold store_data. cbv zeta. set (pa := r_saddr s). set (d := r_sdata s).
  set (s1 := if r_store s && r_resv s && (r_raddr s =? pa) then set_resv s false (r_raddr s) else s).
  assert (A1 : r_dev s1 = r_dev s /\ r_sdata s1 = d) by (unfold s1; destruct (r_store s && r_resv s && (r_raddr s =? pa)); split; reflexivity).
  clearbody s1. destruct A1 as (A1 & B1). rewrite B1.
  set (s2 := if r_store s1 then _ else s1). assert (A2 : r_dev s2 = r_dev s /\ r_sdata s2 = d).
  { unfold s2. destruct (r_store s1); [rewrite word_dev; destruct (word_sd e s1 pa (merge (lane_mask (shl (r_sstrb s1) (Z.land pa 3))) (shl d (Z.land pa 3 * 8)) (load_word s1 pa))) as (-> & _)|]; split; assumption. }
  clearbody s2. destruct A2 as (A2 & B2). unfold effects.
  set (s3 := if pa =? UART_BASE then _ else s2). assert (A3 : r_dev s3 = (if pa =? 0x10000000 then [Putc (d mod 256)] else []) ++ r_dev s /\ r_sdata s3 = d).
  { unfold s3, UART_BASE. destruct (Z.eqb_spec pa 0x10000000) as [K|K]; cbn [app].
    - cbn [add_dev r_dev r_sdata]. rewrite word_dev, A2. destruct (word_sd e s2 0x10000000 (Z.land (load_word s2 0x10000000) 0xffffff00)) as (-> & _). split; [|exact B2].
      f_equal. f_equal. rewrite K. change (Z.land 0x10000000 3 * 8) with 0. unfold shl. rewrite Z.shiftl_0_r, byte_land. unfold w32. change (2 ^ 32) with 4294967296. lia.
    - split; assumption. }
  clearbody s3. destruct A3 as (A3 & B3). rewrite B3, (byte_land d).
  set (s4 := if (pa =? 0x10000001) && (d mod 256 =? 7) then _ else s3). assert (A4 : r_dev s4 = (if (pa =? 0x10000001) && (d mod 256 =? 7) then [Raise] else []) ++ r_dev s3 /\ r_sdata s4 = d).
  { unfold s4. destruct ((pa =? 0x10000001) && (d mod 256 =? 7)); cbn [app]; [|split; [reflexivity|exact B3]].
    cbn [add_dev wc set_csr r_dev r_sdata]. rewrite !word_dev. set (t := store_word e s3 PLIC_CLAIM 10). destruct (word_sd e t UART_BASE (Z.land (load_word t UART_BASE) 0xfff0ffff)) as (-> & _).
    split; [reflexivity|]. unfold t. destruct (word_sd e s3 PLIC_CLAIM 10) as (-> & _). exact B3. }
  clearbody s4. destruct A4 as (A4 & B4). rewrite B4, (byte_land d).
  set (s5 := if (pa =? 0x10000001) && (d mod 256 =? 5) then _ else s4). assert (A5 : r_dev s5 = (if (pa =? 0x10000001) && (d mod 256 =? 5) then [Ready] else []) ++ r_dev s4 /\ r_sdata s5 = d).
  { unfold s5. destruct ((pa =? 0x10000001) && (d mod 256 =? 5)); cbn [app]; [|split; [reflexivity|exact B4]].
    cbn [add_dev r_dev r_sdata]. rewrite !word_dev. destruct (word_sd e s4 UART_BASE (Z.lor (Z.land (load_word s4 UART_BASE) 0xfff0ffff) 0x30000)) as (-> & _). split; [reflexivity|exact B4]. }
  clearbody s5. destruct A5 as (A5 & B5). rewrite B5, (byte_land d). unfold PLIC_CLAIM.
  set (s6 := if (pa =? 0x0c201004) && (d mod 256 =? 10) then _ else s5). assert (A6 : r_dev s6 = (if (pa =? 0x0c201004) && (d mod 256 =? 10) then [Complete] else []) ++ r_dev s5).
  { unfold s6. destruct ((pa =? 0x0c201004) && (d mod 256 =? 10)); cbn [app]; [|reflexivity]. cbn [add_dev wc set_csr r_dev]. now rewrite word_dev. }
  clearbody s6. cbn [set_st r_dev]. now rewrite A6, A5, A4, A3, !app_assoc.
Qed.
Lemma exc_dev tv s : r_dev (ref_exception tv s) = r_dev s.
Proof.
  unfold ref_exception. cbv zeta. match goal with |- context [if ?b then _ else _] => destruct b end; [reflexivity|].
  match goal with |- context [if ?b then _ else _] => destruct b end; [reflexivity|]. destruct (r_inst s =? INST_MRET); [reflexivity|]. destruct (r_inst s =? INST_SRET); reflexivity.
Qed.
Lemma csr_dev e s : r_dev (rv32csr e s) = r_dev s.
Proof.
  unfold rv32csr. cbv zeta. match goal with |- context [if ?b then _ else _] => destruct b end; [rewrite exc_dev; reflexivity|]. destruct (cvt (bits (r_inst s) 31 20)) as [c|]; [|reflexivity].
  cbn [set_pc r_dev]. set (s1 := if negb _ || _ then wr s _ _ else s). assert (A : r_dev s1 = r_dev s) by (unfold s1; match goal with |- context [if ?b then _ else _] => destruct b end; reflexivity). clearbody s1.
  match goal with |- context [if ?b then ref_write_csr _ _ _ else _] => destruct b end; [|exact A]. rewrite <- A. destruct c; reflexivity.
Qed.
Lemma zfinx_dev e s : r_dev (rv32zfinx e s) = r_dev s.
Proof. unfold rv32zfinx. cbv zeta. destruct (zfinx _ _ _ _ _) as [(v & ill)|]; [|reflexivity]. destruct ill, (bits (r_inst s) 11 7 =? 0); reflexivity. Qed.

(** The instruction [w] stores [d] to the physical address [pa]. *)
Definition reached (e : renv) (s : ref) (va k pa : Z) : Prop := if translated s then va2pa s va k = Some pa else va = pa.
Inductive stores (e : renv) (s : ref) (w : Z) : Z -> Z -> Prop :=
| st_store pa d : bits w 6 0 = 35 -> reached e s (w32 (r_gpr s (bits w 19 15) + immS w)) 2 pa ->
    d = (let b := r_gpr s (bits w 24 20) in if bits w 14 12 =? 0 then b mod 256 else if bits w 14 12 =? 1 then b mod 65536 else b) -> stores e s w pa d
| st_sc pa : bits w 6 0 = 47 -> bits w 31 27 = 3 -> reached e s (r_gpr s (bits w 19 15)) 2 pa -> r_resv s = true -> r_raddr s = pa ->
    stores e s w pa (r_gpr s (bits w 24 20))
| st_amo pa v : bits w 6 0 = 47 -> reached e s (r_gpr s (bits w 19 15)) 2 pa -> bits w 31 27 <> 2 -> bits w 31 27 <> 3 ->
    ref_amo (bits w 31 27) (load_word s pa) (r_gpr s (bits w 24 20)) = Some v -> stores e s w pa v.
(** The cases in which store_data runs although nothing is stored: load-reserved, a
    store-conditional that fails, and reserved values of funct5. *)
Definition no_store (e : renv) (s : ref) (w : Z) : Prop := bits w 6 0 = 47 /\
  (bits w 31 27 = 2 \/
   (bits w 31 27 = 3 /\ exists pa, reached e s (r_gpr s (bits w 19 15)) 2 pa /\ ~ (r_resv s = true /\ r_raddr s = pa)) \/
   (bits w 31 27 <> 3 /\ forall o b, ref_amo (bits w 31 27) o b = None)).
Lemma amo_known f o b : ref_amo f o b = None -> forall o' b', ref_amo f o' b' = None.
Proof. unfold ref_amo. intros H o' b'. revert H. repeat match goal with |- context [if f =? ?k then _ else _] => destruct (f =? k); [discriminate|] end. reflexivity. Qed.
Lemma fix_some e s va k pa : va2pa_fix e s va k = Some (Some pa) -> va2pa s va k = Some pa.
Proof.
  unfold va2pa_fix. destruct (e_dut e) as [((a & b) & c)|]; [|congruence].
  destruct (va2pa s va k) as [x|]; [|destruct (if k =? 0 then a else if k =? 1 then b else if k =? 2 then c else false); discriminate].
  destruct (if k =? 0 then a else if k =? 1 then b else if k =? 2 then c else false); [discriminate|]. intros [= ->]. reflexivity.
Qed.

Lemma pc_dev s p : r_dev (set_pc s p) = r_dev s. Proof. reflexivity. Qed.
Lemma wr_dev s r v : r_dev (wr s r v) = r_dev s. Proof. reflexivity. Qed.
Lemma key_dev e u p s' : Done (set_pc (store_data e u) p) = Done s' -> r_dev s' = effects (r_saddr u) (r_sdata u) ++ r_dev u.
Proof. intros [= <-]. rewrite pc_dev. apply store_dev. Qed.
(** rv32a with its inner function named. *)
Definition a_body (e : renv) (s : ref) (pa : Z) : res :=
  let f5 := bits (r_inst s) 31 27 in let rd := bits (r_inst s) 11 7 in let b := r_gpr s (bits (r_inst s) 24 20) in
  if nz (Z.land pa 3) then Halt
  else
    let t := if f5 =? 2 then s else set_st s true pa (r_sdata s) 15 in
    let old := load_word t pa in
    let t := if f5 =? 2 then set_resv (wr t rd old) true pa
             else if f5 =? 3 then
               let t := if r_resv t && (r_raddr t =? pa) then wr (set_st t (r_store t) (r_saddr t) b (r_sstrb t)) rd 0
                        else wr (set_st t false (r_saddr t) (r_sdata t) (r_sstrb t)) rd 1 in
               set_resv t false (r_raddr t)
             else match ref_amo f5 old b with
                  | Some v => wr (set_st t (r_store t) (r_saddr t) v (r_sstrb t)) rd old
                  | None => t end in
    Done (set_pc (store_data e t) (w32 (r_pc t + 4))).
Lemma rv32a_eq e s : rv32a e s =
  let f5 := bits (r_inst s) 31 27 in let va := r_gpr s (bits (r_inst s) 19 15) in
  if translated s then
    if f5 =? 2 then
      match va2pa_fix e s va 1 with None => Halt | Some None => Done (ref_exception va (set_pf s true false)) | Some (Some pa) => a_body e s pa end
    else if f5 =? 3 then
      match va2pa_fix e s va 2 with None => Halt | Some None => Done (ref_exception va (set_pf s false true)) | Some (Some pa) => a_body e s pa end
    else
      match va2pa_fix e s va 1, va2pa_fix e s va 2 with
      | None, _ | _, None => Halt
      | Some (Some _), Some (Some pa) => a_body e s pa
      | _, _ => Done (ref_exception va (set_pf s false true)) end
  else a_body e s va.
Proof. reflexivity. Qed.
Section Rv32a.
Variables (e : renv) (s t : ref) (w : Z).
Hypothesis (HC : forall k va, va2pa_fix e t va k = va2pa_fix e s va k) (HT : translated t = translated s) (HG : r_gpr t = r_gpr s) (HI : r_inst t = w) (HM : r_mem t = r_mem s)
  (HV : r_resv t = r_resv s) (HA : r_raddr t = r_raddr s) (HD : r_dev t = r_dev s).
Lemma rv32a_dev s' : bits w 6 0 = 47 -> rv32a e t = Done s' ->
  r_dev s' = r_dev s \/ no_store e s w \/ exists pa d, stores e s w pa d /\ r_dev s' = effects pa d ++ r_dev s.
Proof.
  intros O. rewrite rv32a_eq. cbv zeta. rewrite HI, HG, HT.
  set (f5 := bits w 31 27). set (va := r_gpr s (bits w 19 15)). set (b := r_gpr s (bits w 24 20)).
  assert (KEY : forall u p, Done (set_pc (store_data e u) p) = Done s' -> r_dev s' = effects (r_saddr u) (r_sdata u) ++ r_dev u) by (intros u p; apply key_dev).
  set (body := a_body e t). assert (BODY : forall pa, (f5 = 2 \/ reached e s va 2 pa) -> body pa = Done s' -> no_store e s w \/ exists pa d, stores e s w pa d /\ r_dev s' = effects pa d ++ r_dev s).
  { intros pa RE. unfold body, a_body. cbv zeta. rewrite HI, HG. fold f5. fold b. destruct (nz (Z.land pa 3)); [discriminate|]. intros X.
    destruct (Z.eqb_spec f5 2) as [K2|K2]. { left. split; [exact O|]. left. exact K2. }
    destruct RE as [RE|RE]; [contradiction|].
    destruct (Z.eqb_spec f5 3) as [K3|K3].
    - cbn [set_st r_resv r_raddr] in X. rewrite HV, HA in X. destruct (r_resv s && (r_raddr s =? pa)) eqn:RV.
      + right. apply andb_true_iff in RV. destruct RV as (R1 & R2). apply Z.eqb_eq in R2. exists pa, b. split; [now apply st_sc|].
        apply KEY in X. cbn [set_resv wr set_gpr set_st r_saddr r_sdata r_dev] in X. rewrite HD in X. exact X.
      + left. split; [exact O|]. right. left. split; [exact K3|]. exists pa. split; [exact RE|]. intros (R1 & R2). rewrite R1, R2, Z.eqb_refl in RV. discriminate RV.
    - destruct (ref_amo f5 (load_word t pa) b) as [v|] eqn:AM.
      + right. change (load_word (set_st t true pa (r_sdata t) 15) pa) with (load_word t pa) in X. rewrite AM in X. exists pa, v. split.
        { apply st_amo; try assumption. unfold load_word in *. now rewrite <- HM. }
        apply KEY in X. cbn [wr set_gpr set_st r_saddr r_sdata r_dev] in X. rewrite HD in X. exact X.
      + left. split; [exact O|]. right. right. split; [exact K3|]. exact (amo_known _ _ _ AM). }
  clearbody body.
  assert (EX : forall l k, Done (ref_exception va (set_pf t l k)) = Done s' -> r_dev s' = r_dev s) by (intros l k [= <-]; rewrite exc_dev; exact HD).
  rewrite !HC. destruct (translated s) eqn:TR.
  - destruct (Z.eqb_spec f5 2) as [K2|K2]; [|destruct (Z.eqb_spec f5 3) as [K3|K3]].
    + destruct (va2pa_fix e s va 1) as [[pa|]|]; [|intros X; left; exact (EX _ _ X)|discriminate]. intros X. right. apply (BODY pa); [now left|exact X].
    + destruct (va2pa_fix e s va 2) as [[pa|]|] eqn:V; [|intros X; left; exact (EX _ _ X)|discriminate]. intros X. right. apply (BODY pa); [|exact X]. right. unfold reached. rewrite TR. exact (fix_some _ _ _ _ _ V).
    + destruct (va2pa_fix e s va 1) as [[pa1|]|]; destruct (va2pa_fix e s va 2) as [[pa|]|] eqn:V; try discriminate; intros X; try (left; exact (EX _ _ X)).
      right. apply (BODY pa); [|exact X]. right. unfold reached. rewrite TR. exact (fix_some _ _ _ _ _ V).
  - intros X. right. apply (BODY va); [|exact X]. right. unfold reached. now rewrite TR.
Qed.
Lemma rv32im_dev s' : rv32im e t = Done s' ->
  r_dev s' = r_dev s \/ exists pa d, stores e s w pa d /\ r_dev s' = effects pa d ++ r_dev s.
Proof.
  unfold rv32im. cbv zeta. rewrite HI, HG, HT.
  destruct (Z.eqb_spec (bits w 6 0) 55); [intros [= <-]; now left|]. destruct (Z.eqb_spec (bits w 6 0) 23); [intros [= <-]; now left|].
  destruct (Z.eqb_spec (bits w 6 0) 111); [intros [= <-]; now left|]. destruct (Z.eqb_spec (bits w 6 0) 103); [intros [= <-]; now left|].
  destruct (Z.eqb_spec (bits w 6 0) 99); [intros [= <-]; now left|].
  rewrite !HC. destruct (Z.eqb_spec (bits w 6 0) 3).
  { destruct (if translated s then _ else _) as [[pa|]|]; [|intros [= <-]; left; rewrite exc_dev; exact HD|discriminate]. destruct (misaligned _ pa); [discriminate|]. intros [= <-]. now left. }
  destruct (Z.eqb_spec (bits w 6 0) 35) as [O|].
  { destruct (if translated s then _ else _) as [[pa|]|] eqn:V; [|intros [= <-]; left; rewrite exc_dev; exact HD|discriminate]. destruct (misaligned _ pa); [discriminate|]. intros X. apply key_dev in X. cbn [set_st r_saddr r_sdata r_dev] in X. rewrite HD in X.
    right. eexists pa, _. split.
    - apply st_store; [exact O| |reflexivity]. unfold reached. destruct (translated s); [exact (fix_some _ _ _ _ _ V)|]. injection V as <-. reflexivity.
    - rewrite X. do 2 f_equal. change 0xffff with (Z.ones 16). rewrite byte_land, Z.land_ones by lia. reflexivity. }
  destruct (Z.eqb_spec (bits w 6 0) 19). { destruct (ref_opimm _ _); try discriminate; intros [= <-]; now left. }
  destruct (Z.eqb_spec (bits w 6 0) 51). { destruct (ref_op _ _ _); try discriminate; intros [= <-]; now left. }
  intros [= <-]. now left.
Qed.
End Rv32a.

(** A device side effect of one call of exec is that of the store the fetched instruction
    performs.  Partial: not for the words of [no_store], where it is false. *)
Theorem c37_device_effects_partial e s s' : exec e s = Done s' -> r_dev s' <> r_dev s ->
  exists w, fetches e s w /\ (no_store e s w \/ exists pa d, stores e s w pa d /\ r_dev s' = effects pa d ++ r_dev s).
Proof.
  intros X N.
  assert (RS : forall w, riscv e (begin s w) = Done s' -> no_store e s w \/ exists pa d, stores e s w pa d /\ r_dev s' = effects pa d ++ r_dev s).
  { intros w. unfold riscv. cbv zeta. fold (lines e (begin s w)). rewrite lines_begin. fold (ready e (begin s w) (lines e s)). set (t := ready e (begin s w) (lines e s)).
    change (r_inst (sync_timer e (begin s w))) with w. change (r_flags t) with clear. unfold clear. cbn [f_pfi f_pfl f_pfs f_ill].
    match goal with |- (if ?b then _ else _) = _ -> _ => destruct b end.
    { intros [= <-]. elim N. destruct (e_only e); reflexivity. }
    cbv iota.
    assert (Z0 : forall r, zero_x0 r = Done s' -> (forall a, r = Done a -> r_dev a <> r_dev s -> no_store e s w \/ exists pa d, stores e s w pa d /\ r_dev a = effects pa d ++ r_dev s) ->
        no_store e s w \/ exists pa d, stores e s w pa d /\ r_dev s' = effects pa d ++ r_dev s).
    { intros [a| |] Y H; try discriminate Y. cbn [zero_x0] in Y. injection Y as <-. exact (H a eq_refl N). }
    intros Y. refine (Z0 _ Y _). intros a. match goal with |- (if ?b then _ else _) = _ -> _ => destruct b end.
    { intros [= <-] M. elim M. rewrite exc_dev. reflexivity. }
    destruct (Z.eqb_spec (bits w 6 0) 0x73). { intros [= <-] M. elim M. rewrite csr_dev. reflexivity. }
    destruct (Z.eqb_spec (bits w 6 0) 0x2f) as [O|].
    { intros A M. destruct (rv32a_dev e s t w (fun _ _ => eq_refl) eq_refl eq_refl eq_refl eq_refl eq_refl eq_refl eq_refl a O A) as [E|H]; [now elim M|exact H]. }
    match goal with |- (if ?b then _ else _) = _ -> _ => destruct b end. { intros [= <-] M. elim M. rewrite zfinx_dev. reflexivity. }
    intros A M. destruct (rv32im_dev e s t w (fun _ _ => eq_refl) eq_refl eq_refl eq_refl eq_refl a A) as [E|H]; [now elim M|right; exact H]. }
  unfold exec in X. cbv zeta in X. cbn [set_st set_flags r_csr r_priv r_pc r_saddr r_sdata r_sstrb] in X.
  assert (GO : forall pa, (if load_word s pa =? INST_EBREAK then Done (set_end (set_pc (begin s (load_word s pa)) (w32 (r_pc s + 4))) true) else riscv e (begin s (load_word s pa))) = Done s' ->
     load_word s pa <> INST_EBREAK /\ (no_store e s (load_word s pa) \/ exists a d, stores e s (load_word s pa) a d /\ r_dev s' = effects a d ++ r_dev s)).
  { intros pa Y. destruct (Z.eqb_spec (load_word s pa) INST_EBREAK) as [K|K]; [injection Y as <-; now elim N|]. split; [exact K|]. exact (RS _ Y). }
  unfold fetches. destruct (nz (Z.land (r_csr s satp) 0x80000000) && negb (r_priv s =? 3)).
  - unfold va2pa_fix in X. rewrite (va2pa_csr s) in X by reflexivity. fold (va2pa_fix e s (r_pc s) 0) in X. destruct (va2pa_fix e s (r_pc s) 0) as [[pa|]|] eqn:V.
    + destruct (GO pa X) as (K & H). exists (load_word s pa). split; [split; [exact K|exists pa; split; [reflexivity|reflexivity]]|exact H].
    + injection X as <-. elim N. rewrite exc_dev. reflexivity.
    + discriminate X.
  - destruct (GO (r_pc s) X) as (K & H). exists (load_word s (r_pc s)). split; [split; [exact K|reflexivity]|exact H].
Qed.

(** Conversely an aligned store that does not trap acts on the devices exactly once. *)
Theorem c37_store_acts_once e s w pa : fetches e s w -> bits w 6 0 = 35 -> any_m (lines e s) || any_s (lines e s) = false ->
  let va := w32 (r_gpr s (bits w 19 15) + immS w) in let d := (let b := r_gpr s (bits w 24 20) in if bits w 14 12 =? 0 then b mod 256 else if bits w 14 12 =? 1 then b mod 65536 else b) in
  (if translated s then va2pa_fix e s va 2 = Some (Some pa) else va = pa) -> misaligned (bits w 14 12) pa = false ->
  exists s', exec e s = Done s' /\ r_dev s' = effects pa d ++ r_dev s /\ r_pc s' = w32 (r_pc s + 4).
Proof.
  intros FE O Q va d V MA. rewrite (exec_begin _ _ _ FE), (riscv_im e (begin s w) eq_refl Q) by (now right). rewrite lines_begin. set (t := ready e (begin s w) (lines e s)).
  assert (T : (if translated t then va2pa_fix e t va 2 else Some (Some va)) = Some (Some pa)).
  { change (translated t) with (translated s). unfold t. rewrite fix_ready. destruct (translated s); [exact V|now rewrite V]. }
  unfold rv32im. cbv zeta. change (r_inst t) with w. change (r_gpr t) with (r_gpr s). rewrite O. eqbs. fold va. rewrite T, MA. cbn [zero_x0]. eexists. split; [reflexivity|]. split; [|reflexivity].
  rewrite wr_dev, pc_dev, store_dev. cbn [set_st r_saddr r_sdata r_dev]. unfold d. change 0xffff with (Z.ones 16). rewrite byte_land, Z.land_ones by lia. reflexivity.
Qed.

(** Without the exclusion it is false: a load-reserved after a byte was printed prints it
    again, and a failed store-conditional to the transmit register prints. *)
Definition dev_after (r : res) : option (list effect) := match r with Done s => Some (r_dev s) | _ => None end.
Definition two (e : renv) (s : ref) : res := match exec e s with Done s' => exec e s' | r => r end.
Definition uart_prog (a b : Z) : ref :=
  mkr (fun r => if r =? 5 then 0x10000000 else if r =? 6 then 65 else if r =? 7 then 0x80001000 else 0) cz 0x80000000 3
    (fun i => if i =? 0x20000000 then a else if i =? 0x20000001 then b else 0) false 0 0 0 false 0 0 no_irq clear 0 (2 ^ 64 - 1) false [].
Theorem c37_device_effects_refuted :
  (* sb x6, 0(x5); lr.w x8, (x7) *)
  dev_after (two e0 (uart_prog 0x00628023 0x1003a42f)) = Some [Putc 65; Putc 65] /\
  (* sc.w x8, x6, (x5) without a reservation, as first instruction *)
  dev_after (exec e0 (uart_prog 0x1862a42f 0)) = Some [Putc 0].
Proof. vm_compute. split; reflexivity. Qed.
Example c37_ex : dev_after (exec e0 (uart_prog 0x00628023 0)) = Some [Putc 65] /\ effects 0x10000000 65 = [Putc 65] /\ fetches e0 (uart_prog 0x00628023 0) 0x00628023 /\
  misaligned (bits 0x00628023 14 12) 0x10000000 = false.
Proof. split; [vm_compute; reflexivity|]. split; [reflexivity|]. split; [split; [discriminate|vm_compute; reflexivity]|vm_compute; reflexivity]. Qed.

Print Assumptions c37_device_effects_partial.
Print Assumptions c37_store_acts_once.
Print Assumptions c37_device_effects_refuted.

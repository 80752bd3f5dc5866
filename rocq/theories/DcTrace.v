(** Runs of the data-cache domain against a memory that answers reads at once
    and never accepts a write. *)
From Verif Require Import Base BaseLemmas MemSpec MemModel DcModel DcSpec DcLemmas DcLoad DcRound.

Definition auto_in (rq : request) (clr : bool) (y : sys) : tick_in :=
  let ra := ms_axi_req (d_ms (y_d y)) in
  let racc := match ra with Some (id, _) => Some id | None => None end in
  let rd := match ra with Some (id, a) => fupd (y_rd y) id (Some a) | None => y_rd y end in
  let rr := match find (fun i => match rd i with Some _ => true | None => false end) (seq 0 8) with
            | Some i => match rd i with Some a => Some (i, fun k => y_mem y (a / 64 * 16 + k)) | None => None end
            | None => None
            end in
  mkti false false racc rr rq clr.
Definition auto (rq : request) (clr : bool) (y : sys) : tick_out * sys :=
  let i := auto_in rq clr y in
  let '(s', o) := tick i (y_d y) in
  (o, mksys s' (y_mem y) (y_wr y)
        (match ti_rresp i with Some (id, _) => if to_rready o then fupd (rd_now i y) id None else rd_now i y | None => rd_now i y end)
        (y_hist y ++ new_stores (y_d y) o)
        (if read_taken i o then length (y_hist y) else y_arr y)).
Lemma auto_step rq clr y : y_wr y = None -> rq_ok rq -> step y (auto_in rq clr y) (fst (auto rq clr y)) (snd (auto rq clr y)) /\ y_wr (snd (auto rq clr y)) = None.
Proof.
  intros W R. unfold auto. destruct (tick (auto_in rq clr y) (y_d y)) as [s' o] eqn:T. cbn [fst snd y_wr]. split; [|exact W].
  set (i := auto_in rq clr y) in *.
  replace (y_wr y) with (if ti_wresp i then None else wr_now i y) by reflexivity.
  apply (step_intro y i (y_mem y) s' o); auto.
  constructor; try discriminate.
  - reflexivity.
  - intros id H. unfold i, auto_in in H. cbn [ti_racc] in H. destruct (ms_axi_req (d_ms (y_d y))) as [[id' a]|]; [|discriminate]. injection H as <-. eauto.
  - intros id d H. unfold rd_now. unfold i, auto_in in H |- *. cbn [ti_rresp ti_racc] in *. destruct (ms_axi_req (d_ms (y_d y))) as [[id' a]|].
    + destruct (find _ _) as [j|]; [|discriminate]. destruct (fupd (y_rd y) id' (Some a) j) as [b|] eqn:E; [|discriminate]. injection H as <- <-. exists b. split; auto.
    + destruct (find _ _) as [j|]; [|discriminate]. destruct (y_rd y j) as [b|] eqn:E; [|discriminate]. injection H as <- <-. exists b. split; auto.
Qed.
Fixpoint auto_fast (n : nat) (y : sys) : sys := match n with O => y | S k => snd (auto no_request false (auto_fast k y)) end.
Lemma auto_fast_ok n y : y_wr y = None -> fast y n (auto_fast n y) /\ y_wr (auto_fast n y) = None.
Proof.
  intros W. induction n as [|n [IH IW]]; [split; [constructor|auto]|]. cbn [auto_fast].
  destruct (auto_step no_request false (auto_fast n y) IW) as [S E]; [repeat split|]. split; auto. eapply fastS; eauto; reflexivity.
Qed.
(** a main tick with [rq] and [n] fast ticks *)
Definition cycle (n : nat) (rq : request) (y : sys) : sys := auto_fast n (snd (auto rq true y)).
Fixpoint cycles (n : nat) (l : list request) (y : sys) : sys := match l with [] => y | r :: t => cycles n t (cycle n r y) end.
Lemma cycles_reach m0 n l y : reach m0 y -> y_wr y = None -> Forall rq_ok l -> reach m0 (cycles n l y) /\ y_wr (cycles n l y) = None.
Proof.
  revert y. induction l as [|r l IH]; intros y R W F; [auto|]. inversion F; subst. cbn [cycles].
  destruct (auto_step r true y W) as [S E]; auto. destruct (auto_fast_ok n (snd (auto r true y)) E) as [FF FE].
  apply IH; auto. eapply fast_reach; [|exact FF]. eapply reachS; eauto.
Qed.
Definition st_rq (a d : Z) : request := mkrq None None (Some (mksr a d 15 7)) None 2.
Definition ld_rq (a : Z) : request := mkrq (Some (mklr a 9)) None None None 2.
Definition lines : list request := map (fun k => st_rq (Z.of_nat k * 16384) 1) (seq 0 13).
(** thirteen dirty lines of set 0: four in the cache, eight in the write buffer,
    and the thirteenth in the fill register *)
Definition y13 := cycles 15 lines (sys0 (fun _ => 0)).
(** another store to the thirteenth line, then a load of it *)
Definition y14 := cycle 15 (st_rq (12 * 16384) 2) y13.
Definition y15 := snd (auto (ld_rq (12 * 16384)) true y14).
Definition y16 := auto_fast 15 y15.

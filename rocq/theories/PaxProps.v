(** C61: the MMIO bridge. *)
From Verif Require Import Base BaseLemmas MemModel MemSpec PeriphModel LsuModel PaxModel PaxSpec PaxProofs PaxComp.
Local Open Scope nat_scope.
#[local] Opaque Z.pow Z.land Z.lor Z.lxor Z.shiftl Z.shiftr Z.ldiff read_load.

(** *** The bridge alone, in any environment *)
(** The answers given are those of the requests taken, in order; at most one
    request is open. *)
Theorem c61_served_in_order s h : preach s h ->
  (exists rest, serve (h_ops h) (h_raws h) = h_ans h ++ rest) /\ length (h_ans h) <= length (h_ops h) <= S (length (h_ans h)).
Proof.
  intros R. destruct (preach_inv s h R) as [s h B RV L A T | s h B RV L A T | s h ops q v B RV O Q M W Ad Wd F L A T].
  - split; [exists []; rewrite app_nil_r; symmetry; exact A|]. pose proof (serve_len _ _ L) as E. rewrite <- A in E. lia.
  - split; [exists [p_rd s]; symmetry; exact A|]. pose proof (serve_len _ _ L) as E. rewrite <- A, app_length in E. cbn [length] in E. lia.
  - split.
    + rewrite O. rewrite <- (app_nil_r (h_raws h)), serve_app by exact L. rewrite <- A. eexists. reflexivity.
    + pose proof (serve_len _ _ L) as E. rewrite <- A in E. rewrite O, app_length. cbn [length]. unfold taken in *. lia.
Qed.
(** The bus sees exactly the transactions of the requests that have no built-in
    device, once each, in order, with their address, size, strobes and data. *)
Theorem c61_bus_transactions s h : preach s h ->
  exists rest, transactions (h_ops h) = h_txs h ++ rest /\ (length rest <= 1) /\ (length (h_ans h) = length (h_ops h) -> rest = []).
Proof.
  intros R. destruct (preach_inv s h R) as [s h B RV L A T | s h B RV L A T | s h ops q v B RV O Q M W Ad Wd F L A T].
  - exists []. rewrite app_nil_r. split; [symmetry; exact T|]. split; [cbn [length]; lia|reflexivity].
  - exists []. rewrite app_nil_r. split; [symmetry; exact T|]. split; [cbn [length]; lia|reflexivity].
  - pose proof (serve_len _ _ L) as E. rewrite <- A in E. rewrite O, T, transactions_app, transactions_one, M. exists (if p_acc s then [] else [transaction q]).
    split; [destruct (p_acc s); cbn [opt]; rewrite ?app_nil_r; reflexivity|]. split; [destruct (p_acc s); cbn [length]; lia|].
    rewrite app_length. cbn [length]. unfold taken in *. intros H. lia.
Qed.
(** A bus request stays on the wires unchanged until it is accepted; then the
    bridge waits for the answer. *)
Definition is_request (o : axout) : bool := match o with ARead _ _ | AWrite _ _ _ _ => true | _ => false end.
Theorem c61_request_held s i : is_request (pax_out s) = true ->
  if ax_accepted s (pi_ax i) then is_request (pax_out (p_step s i)) = false /\ pax_out (p_step s i) <> ANone else pax_out (p_step s i) = pax_out s.
Proof.
  unfold ax_accepted, p_step, pax_cycle, pax_in, pax_out. cbn [fst]. destruct (p_busy s) eqn:B; cbn [negb]; [|discriminate].
  destruct (p_acc s) eqn:A; cbn [negb]; [destruct (p_write s); discriminate|]. intros _.
  destruct (p_write s) eqn:W; cbn [negb andb orb]; [destruct (a_wacc (pi_ax i))|destruct (a_racc (pi_ax i))];
    cbn [p_busy p_acc p_write p_addr p_f3 p_wd negb]; rewrite ?B, ?A, ?W; cbn [negb is_request]; try (split; [reflexivity|discriminate]); reflexivity.
Qed.
(** If the bus keeps accepting and answering, every request is answered. *)
Fixpoint p_from (s : pax) (h : hist) (f : nat -> pin) (n : nat) : pax * hist :=
  match n with O => (s, h) | S n' => let '(s', h') := p_from s h f n' in (p_step s' (f n'), h_step s' (f n') h') end.
Definition fair (f : nat -> pin) : Prop := forall m, exists n, m <= n /\
  a_racc (pi_ax (f n)) = true /\ a_wacc (pi_ax (f n)) = true /\ exists k, n < k /\ a_rrv (pi_ax (f k)) = true /\ a_wrv (pi_ax (f k)) = true.
Lemma from_reach s h f : preach s h -> (forall n, pin_ok (f n)) -> forall n, preach (fst (p_from s h f n)) (snd (p_from s h f n)).
Proof. intros R K n. induction n as [|n IH]; [exact R|]. cbn [p_from]. destruct (p_from s h f n) as [s' h']. cbn [fst snd] in *. apply prS; [exact IH|apply K]. Qed.
Lemma from_app s h f n k : p_from (fst (p_from s h f n)) (snd (p_from s h f n)) (fun j => f (n + j)) k = p_from s h f (n + k).
Proof.
  induction k as [|k IH]; [rewrite Nat.add_0_r; destruct (p_from s h f n); reflexivity|]. rewrite Nat.add_succ_r. cbn [p_from]. rewrite IH. destruct (p_from s h f (n + k)). reflexivity.
Qed.
Lemma ans_mono s h f n : length (h_ans h) <= length (h_ans (snd (p_from s h f n))).
Proof. induction n as [|n IH]; [cbn; lia|]. cbn [p_from]. destruct (p_from s h f n) as [s' h']. cbn [snd h_step h_ans] in *. rewrite app_length. lia. Qed.
Lemma shows s h f n : p_rv (fst (p_from s h f n)) = true -> length (h_ans h) < length (h_ans (snd (p_from s h f (S n)))).
Proof.
  intros R. pose proof (ans_mono s h f n) as M. cbn [p_from]. destruct (p_from s h f n) as [s' h']. cbn [fst snd h_step h_ans] in *. rewrite app_length.
  unfold pax_resp. rewrite R. cbn [pr_ans length]. lia.
Qed.
(** Waiting states are left by the event waited for and by nothing else. *)
Lemma step_wait s i : p_busy s = true -> p_acc s = true ->
  if (if p_write s then a_wrv (pi_ax i) else a_rrv (pi_ax i)) then p_rv (p_step s i) = true else p_busy (p_step s i) = true /\ p_acc (p_step s i) = true.
Proof.
  intros B A. unfold p_step, pax_cycle, pax_in. cbn [fst]. rewrite B, A. cbn [negb].
  destruct (p_write s); [destruct (a_wrv (pi_ax i))|destruct (a_rrv (pi_ax i))]; try reflexivity; split; reflexivity.
Qed.
Lemma step_ask s i : p_busy s = true -> p_acc s = false ->
  p_busy (p_step s i) = true /\ (p_acc (p_step s i) = (if p_write s then a_wacc (pi_ax i) else a_racc (pi_ax i))).
Proof.
  intros B A. unfold p_step, pax_cycle, pax_in. cbn [fst]. rewrite B, A. cbn [negb].
  destruct (p_write s); cbn [negb andb orb]; [destruct (a_wacc (pi_ax i))|destruct (a_racc (pi_ax i))]; split; try reflexivity; assumption.
Qed.
Lemma from_S s h f n : fst (p_from s h f (S n)) = p_step (fst (p_from s h f n)) (f n).
Proof. cbn [p_from]. destruct (p_from s h f n). reflexivity. Qed.
Lemma wait_answer s h f k0 k : p_busy (fst (p_from s h f k0)) = true -> p_acc (fst (p_from s h f k0)) = true -> k0 <= k ->
  a_rrv (pi_ax (f k)) = true -> a_wrv (pi_ax (f k)) = true -> exists n, p_rv (fst (p_from s h f n)) = true.
Proof.
  intros B A K RR WR.
  assert (G : forall d, (exists m, p_rv (fst (p_from s h f m)) = true) \/ (p_busy (fst (p_from s h f (k0 + d))) = true /\ p_acc (fst (p_from s h f (k0 + d))) = true)).
  { induction d as [|d IH]; [rewrite Nat.add_0_r; right; split; assumption|]. destruct IH as [H|[B' A']]; [left; exact H|].
    rewrite Nat.add_succ_r. pose proof (step_wait _ (f (k0 + d)) B' A') as H. rewrite from_S.
    destruct (if p_write _ then _ else _); [left; exists (S (k0 + d)); rewrite from_S; exact H|right; exact H]. }
  destruct (G (k - k0)) as [H|[B' A']]; [exact H|]. replace (k0 + (k - k0)) with k in B', A' by lia.
  exists (S k). rewrite from_S. pose proof (step_wait _ (f k) B' A') as H. rewrite RR, WR in H. destruct (p_write _); exact H.
Qed.
Lemma wait_accept s h f k : p_busy s = true -> p_acc s = false -> a_racc (pi_ax (f k)) = true -> a_wacc (pi_ax (f k)) = true ->
  exists n, n <= S k /\ p_busy (fst (p_from s h f n)) = true /\ p_acc (fst (p_from s h f n)) = true.
Proof.
  intros B A RA WA.
  assert (G : forall d, (exists m, m <= d /\ p_busy (fst (p_from s h f m)) = true /\ p_acc (fst (p_from s h f m)) = true) \/ (p_busy (fst (p_from s h f d)) = true /\ p_acc (fst (p_from s h f d)) = false)).
  { induction d as [|d IH]; [right; split; assumption|]. destruct IH as [[m [L H]]|[B' A']]; [left; exists m; split; [lia|exact H]|].
    destruct (step_ask _ (f d) B' A') as [B2 A2]. rewrite <- (from_S s h f d) in B2, A2.
    destruct (p_acc (fst (p_from s h f (S d)))) eqn:E; [left; exists (S d); repeat split; [lia|exact B2|exact E]|right; split; [exact B2|reflexivity]]. }
  destruct (G k) as [[m [L H]]|[B' A']]; [exists m; split; [lia|exact H]|]. exists (S k). split; [lia|]. rewrite from_S. destruct (step_ask _ (f k) B' A') as [B2 A2].
  split; [exact B2|]. rewrite A2, RA, WA. destruct (p_write _); reflexivity.
Qed.
Theorem c61_answered s h f : preach s h -> (forall n, pin_ok (f n)) -> fair f -> length (h_ans h) < length (h_ops h) ->
  exists n, length (h_ans h) < length (h_ans (snd (p_from s h f n))).
Proof.
  intros R K F O. assert (X : exists n, p_rv (fst (p_from s h f n)) = true); [|destruct X as [n X]; exists (S n); apply shows; exact X].
  destruct (preach_inv s h R) as [s h B RV L A T | s h B RV L A T | s h ops q v B RV Oq Q M W Ad Wd F3 L A T].
  - pose proof (serve_len _ _ L) as E. rewrite <- A in E. lia.
  - exists 0. exact RV.
  - destruct (F 0) as [n [_ [RA [WA _]]]]. destruct (p_acc s) eqn:C.
    + destruct (F 0) as [n0 [_ [_ [_ [k [_ [RR WR]]]]]]]. apply (wait_answer s h f 0 k); try assumption. lia.
    + destruct (wait_accept s h f n B C RA WA) as [k0 [_ [B' A']]]. destruct (F k0) as [n1 [L1 [_ [_ [k [Lk [RR WR]]]]]]].
      apply (wait_answer s h f k0 k); try assumption. lia.
Qed.

(** A byte load of 0x1fb00003, a store to the timer compare register and a word
    store to 0x1fb00008. *)
Definition ex_dev : periph := periph_init pmem_init.
Definition pi_ (r : option mmioreq) (a : axin) : pin := PI ex_dev 7%Z r 0 a.
Definition quiet : axin := AX false false 0%Z false false.
Definition ex_pins : list pin :=
  [ pi_ (Some (MQ false 531628035%Z 0%Z 0%Z)) quiet; pi_ None quiet; pi_ None (AX true false 0%Z false false); pi_ None quiet; pi_ None (AX false true 200%Z false false);
    pi_ (Some (MQ true 533782536%Z 5%Z 2%Z)) quiet; pi_ (Some (MQ true 531628040%Z 4660%Z 1%Z)) quiet; pi_ None (AX false false 0%Z true false);
    pi_ None (AX false false 0%Z false true); pi_ None quiet ].
Fixpoint p_all (s : pax) (h : hist) (l : list pin) : pax * hist := match l with [] => (s, h) | i :: t => p_all (p_step s i) (h_step s i h) t end.
Lemma p_all_reach l : forall s h, preach s h -> (forall i, In i l -> pin_ok i) -> preach (fst (p_all s h l)) (snd (p_all s h l)).
Proof. induction l as [|i t IH]; intros s h R K; [exact R|]. cbn [p_all]. apply IH; [apply prS; [exact R|apply K; left; reflexivity]|intros j J; apply K; right; exact J]. Qed.
Lemma quiet_ok r a : is_w 32 (a_rdata a) -> (forall q, r = Some q -> req_ok q) -> pin_ok (pi_ r a).
Proof. intros W Q. split; assumption. Qed.
Lemma req_ok_c (w : bool) a d f : (0 <= a < 4294967296)%Z -> (0 <= d < 4294967296)%Z -> (if w then In f [0; 1; 2]%Z else In f [0; 1; 2; 4; 5]%Z) -> req_ok (MQ w a d f).
Proof. intros A D F. split; [exact A|]. split; [exact D|]. cbn [q_wen q_mf3]. destruct w; exact F. Qed.
Example c61_served_ex : exists s h, preach s h /\ h_ans h = [4294967240%Z; 0%Z; 0%Z] /\
  h_txs h = [ARead 531628035 0; AWrite 531628040 1 3 4660].
Proof.
  exists (fst (p_all pax0 hist0 ex_pins)), (snd (p_all pax0 hist0 ex_pins)). split; [|split; vm_compute; reflexivity].
  apply p_all_reach; [constructor|]. intros i I. unfold ex_pins in I. cbn [In] in I.
  repeat (destruct I as [<-|I]; [apply quiet_ok; [unfold is_w; change (2 ^ 32)%Z with 4294967296%Z; cbn [a_rdata quiet]; lia|intros q Hq; first [discriminate Hq|inversion Hq; subst q; apply req_ok_c; [lia|lia|cbn [In]; auto]]]|]).
  contradiction.
Qed.

(** *** Behind the load/store unit *)
(** As long as the loads go to built-in devices, every answer the unit takes is
    the answer to its own operation, and no store reaches the bus twice.  Loads
    over the bus are missing: for them the statement is false (below). *)
Theorem c61_own_answer_partial s : creach covered s -> Forall (fun x => fst x = snd x) (c_took s) /\ NoDup (c_txs s).
Proof. intros R. destruct (creach_inv s R) as [_ [_ [_ [N T]]]]. split; assumption. Qed.
(** A store over the bus is performed before the unit is told so. *)
Theorem c61_store_performed s : creach covered s -> took s = true -> is_modeled_mmio (u_addr (unit_of s)) = false -> In (c_n s) (c_txs s).
Proof.
  intros R T M. destruct (creach_inv s R) as [_ [I _]]. unfold took in T. apply andb_prop in T. destruct T as [T _]. apply andb_prop in T. destruct T as [V A].
  destruct (I V) as [_ IB]. destruct (IB M) as [_ [tx [[B RV N TX|B RV W TG N TX|B RV TG N RD TX|B RV N TG TX] E]]]; try (rewrite N in A; discriminate A). apply E. exact TX.
Qed.

(** Checking a run. *)
Definition calmb (s s' : csys) (i : cin) : bool :=
  negb (u_v (unit_of s)) || negb (took s || i_flush (ci_lsu i) || i_mispred (ci_lsu i)) || negb (u_v (unit_of s')).
Definition staysb (s s' : csys) : bool := negb (u_v (unit_of s)) || u_ld (unit_of s) || took s || u_v (unit_of s').
Fixpoint good (P : uncu -> bool) (s : csys) (is : list cin) : bool :=
  match is with
  | [] => true
  | i :: t => let s' := fst (c_step s i) in calmb s s' i && staysb s s' && (negb (u_v (unit_of s')) || P (unit_of s')) && good P s' t
  end.
Lemma good_reach (P : uncu -> Prop) Pb : (forall u, Pb u = true -> P u) -> forall is s, creach P s -> good Pb s is = true -> creach P (c_run s is).
Proof.
  intros HP. induction is as [|i t IH]; intros s R G; [exact R|]. cbn [good] in G. cbn [c_run]. apply andb_prop in G. destruct G as [G G4]. apply andb_prop in G. destruct G as [G G3].
  apply andb_prop in G. destruct G as [G1 G2]. apply IH; [|exact G4]. apply crS; [exact R| | |].
  - intros V H. left. unfold calmb in G1. rewrite V in G1. cbn [negb orb] in G1. apply orb_prop in G1. destruct G1 as [G1|G1]; [|destruct (u_v _); [discriminate G1|reflexivity]].
    exfalso. destruct H as [H|[H|H]]; rewrite H in G1; rewrite ?orb_true_r in G1; discriminate G1.
  - intros V L T. unfold staysb in G2. rewrite V, L, T in G2. exact G2.
  - intros V. apply HP. rewrite V in G3. exact G3.
Qed.
(** LSU inputs: rob index of the oldest unfinished instruction, allocations, load
    addresses, translations. *)
Definition li (hd : option nat) (la : list lalloc) (ldr : list ldreq) (ml : list mmuresp) : lin :=
  LIn [] false false 0 0 None false [] [] None [] [] ldr ml [] hd la [].
Definition nop (h : nat) : lin := li (Some h) [] [] [].
Definition ci_ (l : lin) (a : axin) : cin := CI l ex_dev 0%Z a.
Definition acc : axin := AX true false 0%Z false false.
Definition ans (d : Z) : axin := AX false true d false false.
(** Two word loads, from [a] and [b], in one dispatch group. *)
Definition two_loads (a b : Z) : list cin :=
  [ ci_ (li None [LA 0 0%Z 0 false; LA 1 0%Z 1 false] [] []) quiet;
    ci_ (li (Some 0) [] [LdR 0 0 false a 2%Z 1 0 false false; LdR 1 1 false b 2%Z 2 0 false false] [MR (MHit a) 0 0; MR (MHit b) 1 1]) quiet ].
Definition timer_loads : list cin := two_loads 533782528%Z 533782532%Z ++ [ci_ (nop 0) quiet; ci_ (nop 0) quiet; ci_ (nop 0) quiet; ci_ (nop 1) quiet; ci_ (nop 1) quiet; ci_ (nop 1) quiet; ci_ (nop 1) quiet].
Example c61_own_answer_ex : exists s, creach covered s /\ c_took s = [(1, 1); (2, 2)].
Proof.
  exists (c_run csys0 timer_loads). split; [|vm_compute; reflexivity].
  apply (good_reach covered (fun u => negb (u_ld u) || is_modeled_mmio (u_addr u))); [|constructor|vm_compute; reflexivity].
  intros u H L. rewrite L in H. exact H.
Qed.
(** Two loads from registers reached over the bus: the bridge performs the first
    read a second time, and the second load takes the answer of that read; its own
    register is not even asked for. *)
Definition bus_loads : list cin := two_loads 531628032%Z 531628036%Z ++
  [ ci_ (nop 0) quiet; ci_ (nop 0) acc; ci_ (nop 0) quiet; ci_ (nop 0) (ans 111%Z); ci_ (nop 0) quiet; ci_ (nop 0) acc; ci_ (nop 0) quiet;
    ci_ (nop 1) quiet; ci_ (nop 1) (ans 222%Z); ci_ (nop 1) quiet ].
Theorem c61_own_answer_refuted : exists s i, creach (fun _ => True) s /\
  c_txs s = [1; 1] /\ c_took (fst (c_step s i)) = [(1, 1); (2, 1)] /\
  u_addr (unit_of s) = 531628036%Z /\ map (fun w => (w_rob w, w_res w)) (o_wb (fst (snd (c_step s i)))) = [(1, 222%Z)].
Proof.
  exists (c_run csys0 bus_loads), (ci_ (nop 1) quiet). split.
  - apply (good_reach (fun _ => True) (fun _ => true)); [trivial|constructor|vm_compute; reflexivity].
  - repeat split; vm_compute; reflexivity.
Qed.
(** A load over the bus squashed by an interrupt: the next MMIO load takes its answer. *)
Definition squashed_loads : list cin := two_loads 531628032%Z 531628036%Z ++
  [ ci_ (nop 0) quiet; ci_ (nop 0) acc; ci_ (LIn [] true false 0 0 None false [] [] None [] [] [] [] [] (Some 0) [] []) quiet;
    ci_ (li None [LA 0 0%Z 2 false] [] []) quiet;
    ci_ (li (Some 2) [] [LdR 0 2 false 533782528%Z 2%Z 1 0 false false] [MR (MHit 533782528%Z) 2 0]) quiet;
    ci_ (nop 2) (ans 111%Z); ci_ (nop 2) quiet ].
Theorem c61_squashed_refuted : exists s i, creach (fun _ => True) s /\
  c_txs s = [1] /\ c_took (fst (c_step s i)) = [(2, 1)] /\
  u_addr (unit_of s) = 533782528%Z /\ map (fun w => (w_rob w, w_res w)) (o_wb (fst (snd (c_step s i)))) = [(2, 111%Z)].
Proof.
  exists (c_run csys0 squashed_loads), (ci_ (nop 2) quiet). split.
  - apply (good_reach (fun _ => True) (fun _ => true)); [trivial|constructor|vm_compute; reflexivity].
  - repeat split; vm_compute; reflexivity.
Qed.

Print Assumptions c61_served_in_order.
Print Assumptions c61_bus_transactions.
Print Assumptions c61_request_held.
Print Assumptions c61_answered.
Print Assumptions c61_own_answer_partial.
Print Assumptions c61_store_performed.
Print Assumptions c61_own_answer_refuted.
Print Assumptions c61_squashed_refuted.

(** C73: the instruction supply from fetch to decode. *)
From Verif Require Import Base BaseLemmas IsaSpec FrontModel FrontSpec FrontProofs FrontProps ExecModel PreIduModel SupModel SupSpec SupProofs.
From Verif Require PreIduSpec PreIduProofs PreIduProps.
Local Open Scope Z_scope.
Ltac Zify.zify_post_hook ::= Z.div_mod_to_equations.
Notation accepted := PreIduSpec.accepted.
Notation consumed := PreIduSpec.consumed.
Notation blocks := PreIduSpec.blocks.
Notation insts := PreIduSpec.insts.

(** *** Runs for the examples: the cache answers when told to, fetch falls through,
    decode takes [k] instructions. *)
Definition grp (mem : Z -> Z) (a : Z) : igroup :=
  IGroup a (fun i => mem (a + 4 * Z.of_nat i)) (fun _ => false) (fun i => a mod 64 / 4 + Z.of_nat i <? 16).
Definition lf (g : igroup) : Prop := line_group g.
Definition pg (a : Z) (p : pred) : Prop := 0 <= pr_next p < M32.
Definition ex_sin (mem : Z -> Z) (s : sup) (w : sghost) (k : nat) (r : bool) : sin :=
  let mk resp nx := SIn true resp (Pred (fun _ => false) (fun _ => 0) nx) false false 0 0 (repeat true k) [] in
  let c := fc s (mk None 0) in
  mk (if r && negb (g_reset c || g_refetch (u_front s) c) then
        match w_out w ++ asked (u_front s) c with x :: _ => Some (grp mem x) | [] => None end else None)
     (block_end (bpu_pc (u_front s) c)).
Definition ex_out (s : sup) (w : sghost) (n : sin) : list Z :=
  let c := fc s n in
  if g_reset c || g_refetch (u_front s) c then []
  else match n_resp n with Some _ => tl (w_out w ++ asked (u_front s) c) | None => w_out w ++ asked (u_front s) c end.
Definition ex_drive (mem : Z -> Z) (x : sup * sghost) (kr : nat * bool) : sup * sghost :=
  let (s, w) := x in
  let n := ex_sin mem s w (fst kr) (snd kr) in
  match sup_step s n with
  | Some (s', o) => (s', SGhost (ex_out s w n) (w_trace w ++ event (fc s n) o) (PreIduSpec.g_step (w_pre w) (u_pre s) (pin s n (offered s o)) 0))
  | None => x
  end.
Definition ex_fine (mem : Z -> Z) (x : sup * sghost) (kr : nat * bool) : bool :=
  let (s, w) := x in
  let n := ex_sin mem s w (fst kr) (snd kr) in
  let c := fc s n in
  (0 <=? c_addr c) && (c_addr c <? M32) && (fst kr <=? length (issue (u_pre s)))%nat &&
  match n_resp n with
  | Some g => (0 <=? ig_pc g) && (ig_pc g <? M32) &&
              match w_out w ++ asked (u_front s) c with x :: _ => x =? ig_pc g | [] => g_reset c || g_refetch (u_front s) c end
  | None => true
  end.
Lemma ex_drive_ok mem x kr : (forall a, 0 <= mem a < M32) -> sreach lf pg (fst x) (snd x) -> ex_fine mem x kr = true ->
  sreach lf pg (fst (ex_drive mem x kr)) (snd (ex_drive mem x kr)).
Proof.
  intros HM R H. destruct x as [s w]. cbn [fst snd] in R. unfold ex_drive. unfold ex_fine in H.
  set (n := ex_sin mem s w (fst kr) (snd kr)) in *. destruct (sup_step s n) as [[s' o]|] eqn:S; [|exact R].
  repeat (apply andb_true_iff in H; destruct H as [H ?]). cbn [fst snd]. apply (sr_step lf pg s w n _ s' o 0%nat R); [|exact S|].
  - unfold fenv. split; [lia|]. split; [|split; [|split]].
    + subst n. unfold ex_sin. cbn [fc c_pred n_pred pr_next]. unfold block_end. apply Z.mod_pos_bound. unfold M32. lia.
    + subst n. unfold ex_sin, pg. cbn [fc c_pred n_pred pr_next]. unfold block_end. apply Z.mod_pos_bound. unfold M32. lia.
    + intros g E. change (c_resp (fc s n)) with (n_resp n) in E. rewrite E in *.
      assert (K : exists a, g = grp mem a).
      { subst n. unfold ex_sin in E. cbn [n_resp] in E. destruct (snd kr && _); [|discriminate]. destruct (w_out w ++ _) as [|a l]; [discriminate|]. injection E as <-. exists a. reflexivity. }
      destruct K as [a ->]. apply andb_true_iff in H0. destruct H0 as [H0 _]. apply andb_true_iff in H0. split; [cbn in *; lia|]. intros i _. reflexivity.
    + unfold ex_out. destruct (g_reset (fc s n) || g_refetch (u_front s) (fc s n)); [reflexivity|]. change (c_resp (fc s n)) with (n_resp n).
      destruct (n_resp n) as [g|] eqn:E; [|reflexivity]. split.
      * intros i. subst n. unfold ex_sin in E. cbn [n_resp] in E. destruct (snd kr && _); [|discriminate].
        destruct (w_out w ++ _) as [|a l] eqn:WO in E; [discriminate|]. injection E as <-. apply HM.
      * apply andb_true_iff in H0. destruct H0 as [_ H0]. destruct (w_out w ++ asked (u_front s) (fc s n)) as [|a l]; [discriminate|].
        apply Z.eqb_eq in H0. subst a. reflexivity.
  - constructor.
    + exists (fst kr), []. rewrite app_nil_r. split; [reflexivity|]. split; [lia|intros ? []].
    + reflexivity.
    + cbn. lia.
    + discriminate.
Qed.
Fixpoint ex_run mem x l := match l with [] => x | kr :: l => ex_run mem (ex_drive mem x kr) l end.
Fixpoint ex_run_fine mem x l := match l with [] => true | kr :: l => ex_fine mem x kr && ex_run_fine mem (ex_drive mem x kr) l end.
Lemma ex_run_ok mem l : (forall a, 0 <= mem a < M32) -> forall x, sreach lf pg (fst x) (snd x) -> ex_run_fine mem x l = true ->
  sreach lf pg (fst (ex_run mem x l)) (snd (ex_run mem x l)).
Proof.
  intros HM. induction l as [|kr l IH]; intros x R H; [exact R|]. cbn [ex_run ex_run_fine] in *. apply andb_true_iff in H. destruct H as [H1 H2].
  apply IH; [apply ex_drive_ok; assumption|exact H2].
Qed.
Definition ex_start (o : option Z) : sup * sghost := (sup_init o, SGhost [] [] (PreIduSpec.Ghost [] [] [])).
(** At 4 a jump 256 bytes ahead, everything else addi x0,x0,0. *)
Definition ex_mem (a : Z) : Z := if a =? 4 then 268435567 else 19.
Lemma ex_mem_range a : 0 <= ex_mem a < M32.
Proof. unfold ex_mem, M32. destruct (a =? 4); lia. Qed.
Definition ex_end (o : option Z) (l : list (nat * bool)) := ex_run ex_mem (ex_start o) l.
Lemma ex_reach o l : ex_run_fine ex_mem (ex_start o) l = true -> sreach lf pg (fst (ex_end o l)) (snd (ex_end o l)).
Proof. intros H. apply ex_run_ok; [exact ex_mem_range|apply sr_init|exact H]. Qed.
Definition ex_l := repeat (0%nat, true) 14.

(** *** C73 *)
(** With no redirection pending, the instructions the queue accepted since the last one,
    followed by those of a block it has not taken yet, are exactly the instructions of the
    blocks fetch delivered since, each once and in order; of a block, the valid ones up to
    the first predicted taken.  While a redirection is pending it holds none. *)
Theorem c73_exactly_once F G s w : sreach F G s w -> exists items,
  Forall2 is_slot (accepted (w_pre w)) items /\
  match u_redir s with
  | None => items ++ waiting s = flat_map slots_of (since (w_trace w) [])
  | Some _ => items = []
  end.
Proof. intros R. destruct (v_items _ _ _ _ (sreach_inv F G s w R)) as (items & H1 & _ & H2). exists items. auto. Qed.
Print Assumptions c73_exactly_once.
Example c73_exactly_once_ex : let x := ex_end None ex_l in
  sreach lf pg (fst x) (snd x) /\ u_redir (fst x) = None /\ length (waiting (fst x)) = 4%nat /\
  map e_pc (accepted (w_pre (snd x))) = [0; 4] ++ map (fun k => 260 + 4 * Z.of_nat k) (List.seq 0 27).
Proof. cbn zeta. split; [apply ex_reach; vm_compute; reflexivity|]. vm_compute. auto. Qed.

(** That stream is a path through the program: it starts where the redirection said, and
    after an instruction at a multiple of 4 it goes on where the stored prediction says,
    which is an address the instruction's encoding allows. *)
Definition fetched_lines (F : igroup -> Prop) (G : Z -> pred -> Prop) : Prop :=
  (forall g, F g -> line_group g) /\ (forall a p, G a p -> 0 <= pr_next p < M32).
Lemma path_of F G s w : fetched_lines F G -> sreach F G s w -> exists items z,
  Forall2 is_slot (accepted (w_pre w)) items /\ ends (bitems (blocks (w_pre w))) items /\ (items = [] \/ path (entry (w_trace w) 0) items z).
Proof.
  intros [HF HG] R. destruct (sreach_inv F G s w R) as [IF IP (items & H1 & H2 & H3)]. destruct (u_redir s).
  { subst items. exists [], 0. auto. }
  pose proof (fun b => c38_blocks_genuine F G _ b IF) as HD. cbn [trace] in HD.
  destruct (stream_path F G (w_trace w) HF HD (fun b H => next_range F G b HG (HD b H)) (redirects_range F G _ IF) 0 [] 0) as (z & P);
    [unfold M32; lia|reflexivity|apply (c38_blocks_follow F G _ IF)|].
  rewrite <- H3 in P. apply path_app in P. destruct P as (y & P & _). exists items, y. auto.
Qed.
Theorem c73_stream_is_a_path F G s w : fetched_lines F G -> sreach F G s w -> exists items z,
  Forall2 is_slot (accepted (w_pre w)) items /\ (items = [] \/ path (entry (w_trace w) 0) items z).
Proof. intros H R. destruct (path_of F G s w H R) as (items & z & A & _ & B). exists items, z. auto. Qed.
Print Assumptions c73_stream_is_a_path.
Example c73_stream_is_a_path_ex : fetched_lines lf pg /\ let x := ex_end (Some 200) ex_l in
  sreach lf pg (fst x) (snd x) /\ entry (w_trace (snd x)) 0 = 200 /\
  map e_pc (firstn 3 (accepted (w_pre (snd x)))) = [200; 204; 208].
Proof. cbn zeta. split; [split; auto|]. split; [apply ex_reach; vm_compute; reflexivity|]. vm_compute. auto. Qed.

(** So what decode is handed starts at the redirection and every next instruction is one
    the encoding of the one before allows. *)
Lemma path_mid f1 i1 f2 i2 y : forall x a z, path a (x ++ (f1, i1) :: (f2, i2) :: y) z ->
  fs_pc (f_slot f1 i1) mod 4 = 0 -> fs_pc (f_slot f2 i2) = predicted_next f1 i1 /\ may_follow (fs_inst (f_slot f1 i1)) (fs_pc (f_slot f1 i1)) (fs_pc (f_slot f2 i2)).
Proof.
  intros x a z P A. apply path_app in P. destruct P as (b & _ & P). cbn [path] in P.
  destruct P as (E & n & H & E2 & _). rewrite E in *. destruct (H A) as [H1 H2]. rewrite E2. auto.
Qed.
Theorem c73_decoded_follows F G s w : fetched_lines F G -> sreach F G s w ->
  (forall e l, consumed (w_pre w) = e :: l -> e_pc e = entry (w_trace w) 0) /\
  (forall x e1 e2 y, consumed (w_pre w) = x ++ e1 :: e2 :: y -> e_pc e1 mod 4 = 0 -> may_follow (e_inst e1) (e_pc e1) (e_pc e2)).
Proof.
  intros H R. pose proof (sreach_inv F G s w R) as I. destruct (path_of F G s w H R) as (items & z & A & _ & B).
  destruct (PreIduProps.c07_fifo _ _ (v_pre _ _ _ _ I)) as [E _]. split.
  - intros e l C. rewrite E, C in A. cbn [app] in A. inversion A as [|? p ? q S Q]; subst. destruct B as [B|B]; [discriminate|].
    destruct p as [f i]. cbn [path] in B. destruct S as (_ & _ & -> & _). apply B.
  - intros x e1 e2 y C L. rewrite E, C, <- app_assoc in A. apply Forall2_app_inv_l in A. destruct A as (px & r & _ & A & ->). cbn [app] in A.
    inversion A as [|? p1 ? q S1 Q]; subst. inversion Q as [|? p2 ? q2 S2 Q2]; subst. destruct B as [B|B]; [destruct px; discriminate|].
    destruct p1 as [f1 i1], p2 as [f2 i2]. destruct S1 as (_ & S1 & S1' & _), S2 as (_ & _ & S2 & _). cbn [fst snd] in *.
    rewrite S1, S1', S2 in *. apply (path_mid f1 i1 f2 i2 q2 px _ z B L).
Qed.
Print Assumptions c73_decoded_follows.
Definition ex_l2 := repeat (0%nat, true) 6 ++ repeat (2%nat, true) 1 ++ repeat (0%nat, true) 4 ++ repeat (2%nat, true) 2.
Example c73_decoded_follows_ex : let x := ex_end None ex_l2 in
  sreach lf pg (fst x) (snd x) /\ map e_pc (consumed (w_pre (snd x))) = [0; 4; 260; 264; 268; 272].
Proof. cbn zeta. split; [apply ex_reach; vm_compute; reflexivity|]. vm_compute. auto. Qed.

(** Every instruction in that stream is a word of a block the cache returned, at its address. *)
Theorem c73_genuine F G s w e : sreach F G s w -> In e (accepted (w_pre w)) -> u_redir s = None ->
  exists ig i, F ig /\ (i < 4)%nat /\ ig_valid ig i = true /\
    e_pc e = (ig_pc ig + 4 * Z.of_nat i) mod M32 /\ e_inst e = ig_inst ig i /\ e_fault e = ig_pf ig i.
Proof.
  intros R HI N. destruct (sreach_inv F G s w R) as [IF IP (items & H1 & _ & H3)]. rewrite N in H3.
  apply In_nth_error in HI. destruct HI as [k K].
  assert (Q : exists p, nth_error items k = Some p /\ is_slot e p).
  { clear - H1 K. revert k K. induction H1 as [|a b l m S _ IH]; intros k K; [destruct k; discriminate|]. destruct k as [|k]; [injection K as <-; exists b; auto|apply IH; exact K]. }
  destruct Q as (p & P1 & P2). apply nth_error_In in P1. assert (P : In p (items ++ waiting s)) by (apply in_or_app; auto). rewrite H3 in P.
  apply in_flat_map in P. destruct P as (b & B1 & B2). unfold slots_of in B2. apply in_map_iff in B2. destruct B2 as (i & <- & I).
  assert (T : forall t acc, In b (since t acc) -> In b acc \/ In (EvGroup b) t).
  { clear. induction t as [|v t IH]; intros acc H; [auto|]. destruct v; cbn [since] in H; apply IH in H; destruct H as [H|H]; try (destruct H; fail); try (right; right; exact H).
    apply in_app_or in H. destruct H as [H|[->|[]]]; [auto|right; left; reflexivity]. }
  destruct (T _ _ B1) as [[]|B]. destruct (c38_blocks_genuine F G _ b IF B) as (ig & p & HF & _ & D & _).
  assert (L : (i < 4)%nat /\ be_valid b i = true).
  { rewrite <- incoming_wanted in I. unfold incoming in I. apply filter_In in I. destruct I as [I V]. apply in_seq in I. cbn [back_in f_slot fs_valid] in V.
    apply andb_true_iff in V. unfold FW in I. split; [lia|apply V]. }
  destruct L as [L V]. destruct (D i L) as (D1 & D2 & D3 & _ & D5 & _). exists ig, i. destruct P2 as (_ & E1 & E2 & E3). cbn [fst snd back_in f_slot fs_inst fs_pc fs_fault] in *.
  rewrite E1, E2, E3, D1, D2, <- D5, <- D3. split; [exact HF|]. auto 6.
Qed.
Print Assumptions c73_genuine.

(** For two neighbours still in flight, both accepted since the last redirection, the
    record the execution units look up gives the older one's address and direction, and
    the younger one is where that record says. *)
Lemma flight st g : PreIduSpec.reach st g -> Forall2 (fun e p =>
    ftq_lookup st (e_idx e) (e_off e) = (true, fs_pc (f_slot (fst p) (snd p)), fs_dir (f_slot (fst p) (snd p)), f_next (fst p)) /\
    e_pc e = fs_pc (f_slot (fst p) (snd p)) /\ e_inst e = fs_inst (f_slot (fst p) (snd p))) (insts (blocks g)) (bitems (blocks g)).
Proof.
  intros R. assert (H : forall bs, (forall b, In b bs -> In b (blocks g)) -> Forall2 (fun e p =>
    ftq_lookup st (e_idx e) (e_off e) = (true, fs_pc (f_slot (fst p) (snd p)), fs_dir (f_slot (fst p) (snd p)), f_next (fst p)) /\
    e_pc e = fs_pc (f_slot (fst p) (snd p)) /\ e_inst e = fs_inst (f_slot (fst p) (snd p))) (insts bs) (bitems bs)); [|apply H; auto].
  induction bs as [|[f l] bs IH]; intros H; [constructor|]. unfold insts, bitems. cbn [map concat flat_map fst snd]. apply Forall2_app; [|apply IH; intros b B; apply H; right; exact B].
  assert (HB : In (f, l) (blocks g)) by (apply H; left; reflexivity). apply In_nth_error in HB. destruct HB as [k K].
  assert (X : forall e, In e l -> In e l) by auto. revert X. generalize l at 1 3 4. intros l'. induction l' as [|e l' IH']; intros X; [constructor|].
  constructor; [|apply IH'; intros e' E'; apply X; right; exact E']. cbn [fst snd]. apply (PreIduProps.c08_lookup st g k f l e R K). apply X. left. reflexivity.
Qed.
Theorem c73_lookup_names_successor F G s w x e1 e2 y : fetched_lines F G -> sreach F G s w ->
  insts (blocks (w_pre w)) = x ++ e1 :: e2 :: y -> (2 + length y <= length (accepted (w_pre w)))%nat ->
  e_pc e1 mod 4 = 0 ->
  exists taken next, ftq_lookup (u_pre s) (e_idx e1) (e_off e1) = (true, e_pc e1, taken, next) /\
    e_pc e2 = if taken then next else (e_pc e1 + 4) mod M32.
Proof.
  intros H R E L A. pose proof (sreach_inv F G s w R) as I. destruct (path_of F G s w H R) as (items & z & H1 & H2 & B).
  pose proof (flight _ _ (v_pre _ _ _ _ I)) as FL. rewrite E in FL. apply Forall2_app_inv_l in FL. destruct FL as (px & r & _ & Q & EB).
  inversion Q as [|? p1 ? q S1 Q1]; subst. inversion Q1 as [|? p2 ? q2 S2 Q2]; subst.
  assert (LEN : forall A B (P : A -> B -> Prop) l m, Forall2 P l m -> length l = length m) by (induction 1; cbn; congruence).
  apply LEN in Q2. apply LEN in H1. rewrite EB in H2.
  assert (K : exists c, items = c ++ p1 :: p2 :: q2).
  { destruct H2 as [[c H2]|[c H2]].
    - assert (LL : (length c <= length px)%nat) by (apply (f_equal (@length _)) in H2; rewrite !app_length in H2; cbn [length] in H2; lia).
      exists (skipn (length c) px). apply (f_equal (skipn (length c))) in H2. rewrite !skipn_app, (skipn_all c), Nat.sub_diag in H2. cbn [app skipn] in H2.
      replace (length c - length px)%nat with 0%nat in H2 by lia. symmetry. exact H2.
    - exists (c ++ px). rewrite H2, <- app_assoc. reflexivity. }
  destruct K as [c ->]. destruct B as [B|B]; [destruct c; discriminate|].
  destruct p1 as [f1 i1], p2 as [f2 i2]. destruct S1 as (S1 & P1 & _), S2 as (_ & P2 & _). cbn [fst snd] in *. rewrite <- P1 in S1.
  exists (fs_dir (f_slot f1 i1)), (f_next f1). split; [exact S1|]. rewrite P1 in A. destruct (path_mid f1 i1 f2 i2 q2 c _ z B A) as [M _].
  rewrite P2, M. unfold predicted_next. rewrite P1. reflexivity.
Qed.
Print Assumptions c73_lookup_names_successor.
Example c73_lookup_ex : let x := ex_end None ex_l in
  sreach lf pg (fst x) (snd x) /\
  let e := nth 1 (insts (blocks (w_pre (snd x)))) ibe0 in
  ftq_lookup (u_pre (fst x)) (e_idx e) (e_off e) = (true, 4, true, 260) /\ e_pc (nth 2 (insts (blocks (w_pre (snd x)))) ibe0) = 260 /\
  length (insts (blocks (w_pre (snd x)))) = 29%nat /\ length (accepted (w_pre (snd x))) = 29%nat.
Proof. cbn zeta. split; [apply ex_reach; vm_compute; reflexivity|]. vm_compute. auto. Qed.

(** When the branch unit, given that record, reports no misprediction, the next
    instruction in flight is the architecturally next one; a misprediction is reported
    whenever it is not. *)
Lemma bru_confirmed m pc v1 v2 pt nx : bo_mispred (bru m pc v1 v2 pt nx) = false -> bo_target (bru m pc v1 v2 pt nx) = if pt then nx else (pc + 4) mod M32.
Proof.
  unfold bru. cbn [bo_mispred bo_target]. intros H. apply negb_false_iff in H. apply orb_true_iff in H. destruct H as [H|H].
  - apply andb_true_iff in H. destruct H as [H1 H2]. apply andb_true_iff in H1. destruct H1 as [-> ->]. apply Z.eqb_eq in H2. symmetry. exact H2.
  - apply andb_true_iff in H. destruct H as [H1 H2]. apply negb_true_iff in H1, H2. rewrite H1, H2. reflexivity.
Qed.
Theorem c73_confirmed F G s w x e1 e2 y rf taken next r : fetched_lines F G -> sreach F G s w ->
  insts (blocks (w_pre w)) = x ++ e1 :: e2 :: y -> (2 + length y <= length (accepted (w_pre w)))%nat ->
  e_pc e1 mod 4 = 0 -> ftq_lookup (u_pre s) (e_idx e1) (e_off e1) = (true, e_pc e1, taken, next) ->
  exec_branch (e_inst e1) rf (e_pc e1) taken next = Some r ->
  (bo_mispred r = false -> e_pc e2 = bo_target r) /\ (e_pc e2 <> bo_target r -> bo_mispred r = true).
Proof.
  intros H R E L A LU X. destruct (c73_lookup_names_successor F G s w x e1 e2 y H R E L A) as (t & n & LU' & P). rewrite LU in LU'. injection LU' as <- <-.
  assert (C : bo_mispred r = false -> e_pc e2 = bo_target r).
  { intros M. rewrite P. unfold exec_branch in X.
    repeat match type of X with (match ?d with _ => _ end) = _ => destruct d; try discriminate end;
    injection X as <-; symmetry; apply bru_confirmed; exact M. }
  split; [exact C|]. intros NE. destruct (bo_mispred r) eqn:M; [reflexivity|]. exfalso. apply NE, C. reflexivity.
Qed.
Print Assumptions c73_confirmed.
Example c73_confirmed_ex : exec_branch 268435567 (fun _ => 0) 4 true 260 = Some (mk_bru true 260 false).
Proof. vm_compute. reflexivity. Qed.

(** The supply never makes the simulator exit. *)
Theorem c73_never_exits F G s w n o' : sreach F G s w -> fenv F G (u_front s) (w_out w) (fc s n) o' -> sup_step s n <> None.
Proof.
  intros R E. pose proof (c38_never_exits F G _ _ _ (v_front _ _ _ _ (sreach_inv F G s w R)) E) as C. unfold sup_step. cbn [gs] in C.
  destruct (fcycle (u_front s) (fc s n)) as [[? ?]|]; [discriminate|contradiction].
Qed.
Print Assumptions c73_never_exits.

(** Without the alignment condition the second theorem fails: after an instruction in the
    last word of a line at an address that is not a multiple of 4, fetch goes on at the
    next line rather than 4 further. *)
Definition ex_mis := ex_end (Some 62) (repeat (0%nat, true) 8).
Theorem c73_misaligned_refuted : exists s w e1 e2 y, sreach lf pg s w /\
  insts (blocks (w_pre w)) = e1 :: e2 :: y /\ (2 + length y <= length (accepted (w_pre w)))%nat /\
  steering (e_inst e1) (e_pc e1) = SNone /\ e_pc e2 <> (e_pc e1 + 4) mod M32.
Proof.
  pose (l := insts (blocks (w_pre (snd ex_mis)))).
  exists (fst ex_mis), (snd ex_mis), (nth 0 l ibe0), (nth 1 l ibe0), (skipn 2 l). split; [apply ex_reach; vm_cast_no_check (eq_refl true)|].
  assert (E : (2 <=? length l)%nat && (length l <=? length (accepted (w_pre (snd ex_mis))))%nat && (e_pc (nth 0 l ibe0) =? 62) && (e_pc (nth 1 l ibe0) =? 64) &&
              (e_inst (nth 0 l ibe0) =? 19) = true) by (vm_cast_no_check (eq_refl true)).
  fold l. generalize dependent l. intros l E. repeat (apply andb_true_iff in E; destruct E as [E ?]).
  destruct l as [|e1 [|e2 y]]; [discriminate E|discriminate E|]. cbn [nth skipn length] in *.
  split; [reflexivity|]. split; [apply Nat.leb_le; assumption|]. repeat match goal with H : (_ =? _) = true |- _ => apply Z.eqb_eq in H; rewrite H end.
  split; [reflexivity|]. unfold M32. lia.
Qed.
Print Assumptions c73_misaligned_refuted.

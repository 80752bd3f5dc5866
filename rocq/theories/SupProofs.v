From Verif Require Import Base BaseLemmas IsaSpec FrontModel FrontSpec FrontProofs FrontProps PreIduModel SupModel SupSpec.
From Verif Require PreIduSpec PreIduProofs PreIduProps.
Local Open Scope Z_scope.
Ltac Zify.zify_post_hook ::= Z.div_mod_to_equations.

(** ** The front end delivers nothing in a redirection and nothing unasked *)
Lemma access_quiet {A} (z d : A) cap full i rd acc o rd' acc' :
  f_access z d cap full i rd acc = Some (o, rd', acc') -> i_we i = false -> i_refetch i = true \/ i_re i = false -> o_rv o = false.
Proof.
  unfold f_access, f_calc, f_comb. intros H W R. destruct (i_reset i).
  { destruct (FrontModel.f_next _ _ _ _); [|discriminate]. destruct (f_acc _ _); [|discriminate]. injection H as <- _ _. reflexivity. }
  rewrite W in H. assert (E : (i_re i && ((if i_refetch i then false else (0 <? r_size rd)%nat) || false || false && i_dum i))%bool = false).
  { destruct R as [-> | ->]; [|reflexivity]. cbn. apply andb_false_r. }
  cbn [andb orb] in *. rewrite E in H. cbn [andb] in H.
  destruct (FrontModel.f_next _ _ _ _); [|discriminate]. destruct (f_acc _ _); [|discriminate]. injection H as <- _ _. reflexivity.
Qed.
Lemma quiet s c s' o : fcycle s c = Some (s', o) -> c_refetch c = true \/ c_re c = false -> co_group o = None.
Proof.
  intros H R. unfold fcycle in H.
  destruct (f_access 0 0 FA_SIZE fa_full _ (f_read 0 (fs_fa s)) (req0 0)) as [[[oa ra] qa]|]; [|discriminate].
  destruct (f_access ie0 ie0 FI_SIZE fi_full _ (f_read ie0 (fs_fi s)) (req0 ie0)) as [[[oi ri] qi]|]; [|discriminate].
  destruct (f_access pe0 pe_dum PT_SIZE pt_full _ (f_read pe0 (fs_pt s)) (req0 pe0)) as [[[op rp] qp]|]; [|discriminate].
  destruct (f_access be0 be0 FB_SIZE fb_full _ (f_read be0 (fs_fb s)) (req0 be0)) as [[[ob rb] qb]|] eqn:B; [|discriminate].
  apply access_quiet in B; [|reflexivity|exact R].
  assert (Bp : c_re c && l_fb_empty s && negb (o_rv ob) && (negb (pe_dummy (o_data op)) && re_pre s c && negb (l_fb_full s) && negb (g_reset c)) = false).
  { destruct R as [R| ->]; [|reflexivity]. unfold re_pre, g_refetch. rewrite R. cbn [orb negb]. cbn [andb]. rewrite ?andb_false_r, ?andb_false_l. reflexivity. }
  match type of H with (match ?x with _ => _ end) = _ => destruct x as [[? ?]|]; [|discriminate] end.
  match type of H with (match ?x with _ => _ end) = _ => destruct x as [[? ?]|]; [|discriminate] end.
  match type of H with (match ?x with _ => _ end) = _ => destruct x as [[? ?]|]; [|discriminate] end.
  match type of H with (match ?x with _ => _ end) = _ => destruct x as [[[? ?] ?]|]; [|discriminate] end.
  rewrite Bp in H.
  match type of H with (match ?x with _ => _ end) = _ => destruct x as [[? ?]|]; [|discriminate] end.
  do 4 (match type of H with (match ?x with _ => _ end) = _ => destruct x; [|discriminate] end).
  injection H as _ <-. cbn [co_group]. rewrite B. reflexivity.
Qed.

(** ** Blocks and slots *)
Lemma incoming_wanted b : incoming (back_in (Some b)) = wanted b [0; 1; 2; 3]%nat.
Proof.
  unfold incoming, back_in. change (List.seq 0 FW) with [0; 1; 2; 3]%nat. cbn [filter f_slot fs_valid no_taken wanted].
  destruct (be_valid b 0), (be_dir b 0), (be_valid b 1), (be_dir b 1), (be_valid b 2), (be_dir b 2), (be_valid b 3), (be_dir b 3); reflexivity.
Qed.
Lemma incoming_none : incoming (back_in None) = [].
Proof. reflexivity. Qed.
Lemma path_app l m a z : path a (l ++ m) z <-> exists y, path a l y /\ path y m z.
Proof.
  revert a. induction l as [|[f i] l IH]; intros a; cbn [app path].
  - split; [intros H; exists a; auto|intros (y & -> & H); exact H].
  - split.
    + intros (E & n & N & P). apply IH in P. destruct P as (y & P & Q). exists y. split; [split; [exact E|exists n; auto]|exact Q].
    + intros (y & (E & n & N & P) & Q). split; [exact E|]. exists n. split; [exact N|]. apply IH. exists y. auto.
Qed.

(** ** One block *)
Section BLOCK.
  Variables (b : bentry) (ig : igroup) (p : pred).
  Hypothesis LG : line_group ig.
  Hypothesis D : forall i, (i < 4)%nat ->
    be_inst b i = ig_inst ig i /\ be_pf b i = ig_pf ig i /\ be_valid b i = ig_valid ig i /\ be_meta b i = pr_meta p i /\
    be_pc b i = (ig_pc ig + 4 * Z.of_nat i) mod M32 /\ be_dir b i = dir_ok (ig_inst ig i) (be_pc b i) (ig_valid ig i) (pr_dir p i).
  Let a := ig_pc ig.
  Let fall := block_end a.
  Let W n i := walk n i (ig_inst ig) (ig_valid ig) (be_pc b) (pr_dir p) fall (pr_next p).
  Let item (i : nat) := (back_in (Some b), i).
  Lemma valid_iff i : (i < 4)%nat -> ig_valid ig i = true <-> a mod 64 / 4 + Z.of_nat i < 16.
  Proof. intros H. rewrite (proj2 LG i H). apply Z.ltb_lt. Qed.
  Lemma rest_off n : forall i, (i + n = 4)%nat -> (forall j, (i <= j < 4)%nat -> ig_valid ig j = false) ->
    W n i = fall /\ wanted b (List.seq i n) = [].
  Proof.
    induction n as [|n IH]; intros i Hi H; [split; reflexivity|]. unfold W. cbn [walk List.seq wanted].
    destruct (D i) as (_ & _ & V & _); [lia|]. rewrite V, (H i) by lia. apply IH; [lia|]. intros j J. apply H. lia.
  Qed.
  (** The address after slot [i] when it does not steer. *)
  Lemma step_on n i : (i + S n = 4)%nat -> ig_valid ig i = true -> exists x,
    (be_pc b i mod 4 = 0 -> x = (be_pc b i + 4) mod M32) /\
    (((0 < n)%nat /\ ig_valid ig (S i) = true /\ x = be_pc b (S i)) \/ ((forall j, (S i <= j < 4)%nat -> ig_valid ig j = false) /\ x = fall)).
  Proof.
    intros Hi V. apply valid_iff in V; [|lia]. pose proof (proj1 LG) as LA. fold a in LA.
    destruct (D i) as (_ & _ & _ & _ & P & _); [lia|]. fold a in P.
    destruct (Z_lt_ge_dec (a mod 64 / 4 + Z.of_nat (S i)) 16) as [L|L]; [destruct n as [|n]|].
    - exists fall. split; [|right; split; [intros j J; lia|reflexivity]]. intros A. rewrite P in *. subst fall. unfold block_end, M32 in *. lia.
    - exists (be_pc b (S i)). split; [|left; split; [lia|split; [apply valid_iff; lia|reflexivity]]].
      intros A. destruct (D (S i)) as (_ & _ & _ & _ & Q & _); [lia|]. fold a in Q. rewrite Q, P. unfold M32. lia.
    - exists fall. split.
      + intros A. rewrite P in *. subst fall. unfold block_end, M32 in *. lia.
      + right. split; [|reflexivity]. intros j J. destruct (ig_valid ig j) eqn:E; [|reflexivity]. apply valid_iff in E; lia.
  Qed.
  Lemma from_slot n : forall i x, (i + n = 4)%nat -> W n i = be_next b ->
    (((0 < n)%nat /\ ig_valid ig i = true /\ x = be_pc b i) \/ ((forall j, (i <= j < 4)%nat -> ig_valid ig j = false) /\ x = fall)) ->
    path x (map item (wanted b (List.seq i n))) (be_next b).
  Proof.
    induction n as [|n IH]; intros i x Hi HW [(Hn & V & ->)|(Off & ->)].
    - lia.
    - unfold W in HW. cbn in HW. cbn. exact HW.
    - destruct (D i) as (I & _ & V' & _ & _ & DR); [lia|]. rewrite V in V'. cbn [List.seq wanted]. rewrite V'.
      destruct (step_on n i Hi V) as (y & Y1 & Y2).
      unfold W in HW. cbn [walk] in HW. rewrite V in HW, DR. unfold dir_ok in DR. cbn [map path]. split; [reflexivity|].
      cbn [item fst snd f_slot back_in fs_inst fs_dir fs_pc]. unfold predicted_next, may_follow. cbn [f_slot f_next back_in fs_dir fs_pc fs_inst].
      rewrite DR, I. destruct (steering (ig_inst ig i) (be_pc b i)) as [|t|t|] eqn:ST.
      + exists y. split; [intros A; split; apply Y1; exact A|]. apply IH; [lia|exact HW|exact Y2].
      + exists (be_next b). split; [intros _; split; [reflexivity|symmetry; exact HW]|reflexivity].
      + destruct (pr_dir p i).
        * exists (be_next b). split; [intros _; split; [reflexivity|left; symmetry; exact HW]|reflexivity].
        * exists y. split; [intros A; split; [|right]; apply Y1; exact A|]. apply IH; [lia|exact HW|exact Y2].
      + exists (be_next b). split; [intros _; split; [reflexivity|exact Logic.I]|reflexivity].
    - destruct (rest_off (S n) i Hi Off) as [E ->]. cbn. rewrite <- HW, E. reflexivity.
  Qed.
End BLOCK.
Lemma block_path (F : igroup -> Prop) (G : Z -> pred -> Prop) b : (forall g, F g -> line_group g) -> delivers F G b -> path (be_pc b 0) (slots_of b) (be_next b).
Proof.
  intros HF (ig & p & Fg & _ & D & N). unfold slots_of. apply (from_slot b ig p (HF _ Fg) D 4 0); [lia|symmetry; exact N|].
  left. split; [lia|]. split; [|reflexivity]. apply (valid_iff ig (HF _ Fg)); [lia|]. lia.
Qed.

(** ** The delivered stream *)
Lemma stream_path (F : igroup -> Prop) (G : Z -> pred -> Prop) t : (forall g, F g -> line_group g) -> (forall b, In (EvGroup b) t -> delivers F G b) ->
  (forall b, In (EvGroup b) t -> 0 <= be_next b < M32) -> (forall x, In (EvRedirect x) t -> 0 <= x < M32) ->
  forall a0 acc a, 0 <= a < M32 -> path a0 (flat_map slots_of acc) a -> follows a t ->
  exists z, path (entry t a0) (flat_map slots_of (since t acc)) z.
Proof.
  intros HF. induction t as [|e t IH]; intros HD HN HR a0 acc a Ha P FO; cbn [entry since follows] in *; [exists a; exact P|].
  destruct e as [|x|b].
  - apply (IH (fun b H => HD b (or_intror H)) (fun b H => HN b (or_intror H)) (fun b H => HR b (or_intror H)) 0 [] 0); [unfold M32; lia|reflexivity|exact FO].
  - apply (IH (fun b H => HD b (or_intror H)) (fun b H => HN b (or_intror H)) (fun b H => HR b (or_intror H)) x [] x); [apply HR; left; reflexivity|reflexivity|exact FO].
  - destruct FO as [PC FO].
    apply (IH (fun b H => HD b (or_intror H)) (fun b H => HN b (or_intror H)) (fun b H => HR b (or_intror H)) a0 (acc ++ [b]) (be_next b)); [apply HN; left; reflexivity| |exact FO].
    rewrite flat_map_app. apply path_app. exists a. split; [exact P|]. cbn [flat_map]. rewrite app_nil_r.
    replace a with (be_pc b 0); [apply (block_path F G); [exact HF|apply HD; left; reflexivity]|].
    rewrite PC by lia. unfold M32 in *. lia.
Qed.
Lemma walk_range n : forall i inst valid pcs dir fall guess, 0 <= fall < M32 -> 0 <= guess < M32 -> 0 <= walk n i inst valid pcs dir fall guess < M32.
Proof.
  induction n as [|n IH]; intros i inst valid pcs dir fall guess HF HG; cbn [walk]; [exact HF|].
  destruct (valid i); [|apply IH; assumption]. unfold steering. repeat match goal with |- context [if ?c then _ else _] => destruct c end; try (apply IH; assumption); try assumption; apply Z.mod_pos_bound; unfold M32; lia.
Qed.
Lemma next_range (F : igroup -> Prop) (G : Z -> pred -> Prop) b : (forall a p, G a p -> 0 <= pr_next p < M32) -> delivers F G b -> 0 <= be_next b < M32.
Proof.
  intros HG (ig & p & _ & g & _ & ->). apply walk_range; [unfold block_end; apply Z.mod_pos_bound; unfold M32; lia|apply (HG _ _ g)].
Qed.
Lemma redirects_range F G g : freach F G g -> forall x, In (EvRedirect x) (trace g) -> 0 <= x < M32.
Proof.
  induction 1 as [|g c o' s' out R IH E S]; intros x H; [destruct H|]. cbn [trace] in H. apply in_app_or in H. destruct H as [H|H]; [apply IH; exact H|].
  unfold event in H. destruct (c_reset c); [destruct H as [H|[]]; discriminate|]. destruct (c_refetch c).
  - destruct H as [H|[]]. injection H as <-. apply E.
  - destruct (co_group out); [destruct H as [H|[]]; discriminate|destruct H].
Qed.

(** ** Instructions and slots *)
Definition bitems (bs : list (fetch * list ibe)) : list (fetch * nat) := flat_map (fun b => map (fun e => (fst b, e_off e)) (snd b)) bs.
Lemma bitems_retire bs : forall c, bitems (PreIduSpec.retire c bs) = skipn c (bitems bs).
Proof.
  induction bs as [|[f l] bs IH]; intros c; cbn [PreIduSpec.retire]; [rewrite skipn_nil; reflexivity|].
  unfold bitems at 2. cbn [flat_map fst snd]. fold (bitems bs). rewrite skipn_app, map_length.
  destruct (c <? length l)%nat eqn:L.
  - apply Nat.ltb_lt in L. replace (c - length l)%nat with 0%nat by lia. cbn [skipn]. unfold bitems. cbn [flat_map fst snd]. rewrite skipn_map. reflexivity.
  - apply Nat.ltb_ge in L. rewrite skipn_all2 by (rewrite map_length; exact L). apply IH.
Qed.
Lemma bitems_app x y : bitems (x ++ y) = bitems x ++ bitems y.
Proof. apply flat_map_app. Qed.
Lemma bitems_length bs : length (bitems bs) = length (PreIduSpec.insts bs).
Proof.
  induction bs as [|[f l] bs IH]; [reflexivity|]. unfold bitems, PreIduSpec.insts. cbn [flat_map map concat fst snd]. rewrite !app_length, map_length. f_equal. exact IH.
Qed.
(** One of the two ends with the other. *)
Definition ends {A} (x y : list A) : Prop := (exists p, x = p ++ y) \/ (exists p, y = p ++ x).
Lemma ends_app {A} (x y z : list A) : ends x y -> ends (x ++ z) (y ++ z).
Proof. intros [[p ->]|[p ->]]; [left|right]; exists p; rewrite app_assoc; reflexivity. Qed.
Lemma ends_skip {A} c (x y : list A) : ends x y -> ends (skipn c x) y.
Proof.
  intros [[p ->]|[p ->]].
  - rewrite skipn_app. destruct (Nat.le_gt_cases c (length p)) as [L|L].
    + replace (c - length p)%nat with 0%nat by lia. left. eexists. reflexivity.
    + rewrite skipn_all2 by lia. right. exists (firstn (c - length p) y). cbn. symmetry. apply firstn_skipn.
  - right. exists (p ++ firstn c x). rewrite <- app_assoc, firstn_skipn. reflexivity.
Qed.
Definition sl (f : fetch) : list (fetch * nat) := map (fun i => (f, i)) (incoming f).
Lemma pushed st i : accepts st i = true -> Forall2 is_slot (push_entries st i) (sl (i_fetch i)).
Proof.
  intros A. unfold push_entries, sl. rewrite A. induction (incoming (i_fetch i)) as [|k l IH]; constructor; [|exact IH].
  unfold is_slot. cbn. auto.
Qed.
Lemma pushed_bitems st i : accepts st i = true -> bitems [(i_fetch i, push_entries st i)] = sl (i_fetch i).
Proof. intros A. unfold bitems, push_entries, sl. rewrite A. cbn [flat_map fst snd]. rewrite app_nil_r, map_map. reflexivity. Qed.
Lemma not_pushed st i : accepts st i = false -> push_entries st i = [].
Proof. intros A. unfold push_entries. rewrite A. reflexivity. Qed.
Lemma slots_sl b : sl (back_in (Some b)) = slots_of b.
Proof. unfold sl, slots_of. rewrite incoming_wanted. reflexivity. Qed.
Lemma since_app t u : forall acc, since (t ++ u) acc = since u (since t acc).
Proof. induction t as [|e t IH]; intros acc; [reflexivity|]. destruct e; cbn [since app]; apply IH. Qed.
Lemma entry_app t u : forall a, entry (t ++ u) a = entry u (entry t a).
Proof. induction t as [|e t IH]; intros a; [reflexivity|]. destruct e; cbn [entry app]; apply IH. Qed.

(** ** The invariant *)
Record sinv (F : igroup -> Prop) (G : Z -> pred -> Prop) (s : sup) (w : sghost) : Prop := SInv {
  v_front : freach F G (GS (u_front s) (w_out w) (w_trace w));
  v_pre : PreIduSpec.reach (u_pre s) (w_pre w);
  v_items : exists items, Forall2 is_slot (PreIduSpec.accepted (w_pre w)) items /\
    ends (bitems (PreIduSpec.blocks (w_pre w))) items /\
    match u_redir s with
    | Some _ => items = []
    | None => items ++ waiting s = flat_map slots_of (since (w_trace w) [])
    end }.
Lemma sinv_step F G s w n o' s' o m : sinv F G s w -> fenv F G (u_front s) (w_out w) (fc s n) o' -> sup_step s n = Some (s', o) ->
  PreIduSpec.env_ok (w_pre w) (u_pre s) (pin s n (offered s o)) m ->
  sinv F G s' (SGhost o' (w_trace w ++ event (fc s n) o) (PreIduSpec.g_step (w_pre w) (u_pre s) (pin s n (offered s o)) m)).
Proof.
  intros [IF IP (items & I1 & I2 & I3)] E S EO. unfold sup_step in S. destruct (fcycle (u_front s) (fc s n)) as [[f' o1]|] eqn:C; [|discriminate].
  injection S as <- <-. constructor; cbn [u_front u_pre u_redir w_out w_trace w_pre].
  - apply (fr_step F G _ (fc s n) o' f' o1 IF E C).
  - apply PreIduSpec.reach_step; [exact IP|exact EO].
  - assert (Q : u_redir s <> None \/ pulls s = false -> co_group o1 = None).
    { intros H. apply (quiet _ _ _ _ C). unfold fc, redir. cbn [c_refetch c_re]. destruct H as [H|H]; [left; destruct (u_redir s); [reflexivity|contradiction]|right; exact H]. }
    set (f := offered s o1) in *. set (i := pin s n f) in *. unfold PreIduSpec.g_step. change (i_flush i) with (n_flush n). change (i_mispred i) with (n_mispred n).
    destruct (n_flush n) eqn:FL.
    { exists []. rewrite orb_true_r. split; [constructor|]. split; [left; exists []; reflexivity|reflexivity]. }
    destruct (n_mispred n) eqn:MI.
    { exists []. cbn [orb]. split; [constructor|]. cbn [PreIduSpec.blocks]. split; [left; exists (bitems (PreIduSpec.keep m (PreIduSpec.blocks (w_pre w)))); rewrite app_nil_r; reflexivity|reflexivity]. }
    cbn [orb PreIduSpec.accepted PreIduSpec.blocks negb andb].
    set (new := if accepts (u_pre s) i then sl f else []).
    exists (items ++ new). split; [|split].
    + apply Forall2_app; [exact I1|]. unfold new. destruct (accepts (u_pre s) i) eqn:A; [apply (pushed _ _ A)|rewrite (not_pushed _ _ A); constructor].
    + rewrite bitems_app, bitems_retire. unfold new. destruct (accepts (u_pre s) i) eqn:A.
      * change f with (i_fetch i). rewrite (pushed_bitems _ _ A). apply ends_app, ends_skip, I2.
      * cbn. rewrite !app_nil_r. apply ends_skip, I2.
    + (* what is waiting *)
      set (s2 := Sup _ _ _ _ _ _).
      assert (X : new ++ waiting s2 = sl f).
      { subst s2 new. unfold waiting. cbn [u_stall u_in]. destruct (front_ready (u_pre s) i) eqn:RD; cbn [negb].
        - unfold accepts. rewrite RD. rewrite app_nil_r. cbn [andb]. change (i_fetch i) with f. unfold sl.
          destruct (incoming f) as [|k l]; reflexivity.
        - unfold accepts. rewrite RD. cbn [andb drop_fired app]. reflexivity. }
      rewrite <- app_assoc, X. rewrite since_app. unfold event. change (c_reset (fc s n)) with false. change (c_refetch (fc s n)) with (redir s). cbv iota.
      subst f. unfold offered, pulls, redir in *. destruct (u_redir s) as [x|] eqn:RE.
      * rewrite orb_true_r in *. rewrite Q by (left; discriminate). subst items. reflexivity.
      * rewrite orb_false_r in *. unfold waiting in I3. destruct (u_stall s); cbn [negb] in *.
        -- rewrite Q by (right; reflexivity). cbn [since]. exact I3.
        -- rewrite app_nil_r in I3. destruct (co_group o1) as [b|]; cbn [since].
           ++ rewrite flat_map_app. cbn [flat_map]. rewrite app_nil_r, slots_sl, I3. reflexivity.
           ++ unfold sl. rewrite incoming_none. cbn [map]. rewrite app_nil_r. exact I3.
Qed.
Theorem sreach_inv F G s w : sreach F G s w -> sinv F G s w.
Proof.
  induction 1 as [o|s w n o' s' o m R IH E S EO].
  - constructor; [apply fr_init|apply PreIduSpec.reach_init|]. exists []. split; [constructor|]. split; [left; exists []; reflexivity|].
    cbn. destruct o; reflexivity.
  - exact (sinv_step F G s w n o' s' o m IH E S EO).
Qed.

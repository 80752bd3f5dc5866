From Verif Require Import Base BaseLemmas ExuModel ExuSpec.
From Coq Require Import Permutation Sorting.Sorted.
Local Open Scope nat_scope.

Definition inv1 (f : fu) (now : nat) (l : list item) : Prop :=
  match f_kind f, f_unit f with
  | KSingle, USingle => (f_slot f = None /\ l = []) \/ exists x, f_slot f = Some (now_inst x) /\ l = [x] /\ x_t x < now
  | KIter lat, UIter o =>
      (f_slot f = None /\ o = None /\ l = []) \/
      exists x, f_slot f = Some (now_inst x) /\ l = [x] /\
        ((o = None /\ S (x_t x) = now) \/ (o = Some (now_inst x, due_at (KIter lat) x) /\ x_t x + 1 < now))
  | KFixed L, UFixed p =>
      exists st pend, l = st ++ pend /\ p = map (fun x => (now_inst x, due_at (KFixed L) x)) st /\
        StronglySorted (fun x y => x_t x < x_t y) st /\ Forall (fun x => x_t x + 1 < now /\ now <= x_t x + L) st /\
        ((f_slot f = None /\ pend = []) \/ exists x, f_slot f = Some (now_inst x) /\ pend = [x] /\ S (x_t x) = now)
  | _, _ => False
  end.

Lemma now_inst_mask x : e_mask (now_inst x) = x_mask x. Proof. reflexivity. Qed.
Lemma clr_now c x : clr c (now_inst x) = now_inst (resolve (c_clear c) x).
Proof. unfold clr, now_inst, resolve, x_mask, with_mask. cbn. now rewrite fold_left_app. Qed.
Lemma br_killed_squash c x : c_flush c = false -> br_killed c (now_inst x) = squash c x.
Proof. intros F. unfold br_killed, squash, nz. rewrite F. reflexivity. Qed.
Lemma due_resolve k m x : due_at k (resolve m x) = due_at k x.
Proof. destruct k; reflexivity. Qed.
Lemma survive_nil c : survive c [] = []. Proof. reflexivity. Qed.
Lemma survive_one c x : survive c [x] = if squash c x then [] else [resolve (c_clear c) x].
Proof. unfold survive. cbn. destruct (squash c x); reflexivity. Qed.
Lemma survive_app c a b : survive c (a ++ b) = survive c a ++ survive c b.
Proof. unfold survive. now rewrite filter_app, map_app. Qed.
Lemma survive_flush c l : c_flush c = true -> survive c l = [].
Proof. intros F. unfold survive. replace (filter _ l) with (@nil item); [reflexivity|]. induction l as [|x l IH]; [reflexivity|]. cbn. unfold squash at 1. rewrite F. exact IH. Qed.
Lemma not_flush_all c : (0 <= c_brmask c)%Z -> is_flush_all (flush_mask c) = false.
Proof. intros H. unfold is_flush_all, flush_mask. destruct (c_flush c); [reflexivity|]. destruct (c_mispred c); [|reflexivity]. apply Z.eqb_neq. lia. Qed.

(** What one unit does in one cycle. *)
Definition cm_ok (k : kind) (now : nat) (l : list item) (cm : option einst) : Prop :=
  (cm = None /\ forall x, In x l -> due k now x = false) \/
  exists x tl, l = x :: tl /\ cm = Some (now_inst x) /\ due k now x = true /\ (forall y, In y tl -> due k now y = false).

Definition fu_rest (c : ctl) (win : bool) (f : fu) : fu * bool :=
  let '(f1, cm, en) := fu_a c f in fu_b c win en f1.
Definition fu_cm (c : ctl) (f : fu) : option einst := snd (fst (fu_a c f)).

Definition zombie_free (c : ctl) (f : fu) (l : list item) : Prop :=
  c_flush c = true -> f_kind f <> KSingle -> forall x, In x l -> x_t x + 1 < c_now c -> Z.land (x_mask x) 65535 <> 0%Z.

Definition unit_post (c : ctl) (f : fu) (l : list item) (win : bool) : Prop :=
  let fr := fu_rest c win f in
  let l2 := if win then tl (survive c l) else survive c l in
  cm_ok (f_kind f) (c_now c) (survive c l) (fu_cm c f) /\
  inv1 (fst (fu_c c fr)) (S (c_now c)) l2 /\
  f_kind (fst fr) = f_kind f /\ f_ops (fst fr) = f_ops f /\
  (snd fr = true <-> f_slot (fst (fu_c c fr)) = None) /\ (snd fr = true -> f_slot (fst fr) = None) /\
  (f_slot (fst fr) = None <-> (match f_kind f with KFixed _ => True | _ => l2 = [] end)).

Lemma single_post c f l win : c_now c <> 0 -> f_kind f = KSingle -> inv1 f (c_now c) l ->
  (win = true -> fu_cm c f <> None) -> unit_post c f l win.
Proof.
  intros Hn K I W. unfold unit_post, fu_rest, fu_cm in *. unfold inv1 in I. rewrite K in I.
  destruct f as [k ops slot un]. cbn [f_kind] in K. subst k. destruct un as [| |]; try (cbn in I; tauto). cbn [f_unit f_slot] in I.
  unfold fu_a in *. cbn [f_kind f_unit f_slot f_ops ctrl issue] in *.
  destruct I as [[-> ->]|(x & -> & -> & Tx)].
  - cbn in *. destruct win; [exfalso; now apply W|]. cbn [survive filter map tl]. destruct (c_flush c); cbn.
    all: split; [left; split; [reflexivity|intros ? []]|]; split; [left; auto|]; repeat split; auto.
  - rewrite survive_one. destruct (c_flush c) eqn:F.
    + cbn in *. destruct win; [exfalso; now apply W|]. unfold squash. rewrite F. cbn.
      split; [left; split; [reflexivity|intros ? []]|]; split; [left; auto|]; repeat split; auto.
    + cbn [orb negb] in *. rewrite br_killed_squash in * by exact F. destruct (squash c x) eqn:Sq; cbn [negb] in *.
      * cbn in *. destruct win; [exfalso; now apply W|]. rewrite F.
        split; [left; split; [reflexivity|intros ? []]|]; split; [left; auto|]; repeat split; auto.
      * cbn [is_some fst snd] in *. unfold fu_b. cbn [f_kind f_unit consume f_ops f_slot]. cbn [negb orb].
        split.
        { right. exists (resolve (c_clear c) x), []. split; [reflexivity|]. split; [now rewrite clr_now|]. split; [|intros ? []].
          unfold due. rewrite due_resolve. cbn. apply Nat.leb_le. lia. }
        destruct win; cbn [fst snd f_kind f_slot f_ops fu_c f_unit tl].
        -- split; [left; rewrite F; auto|]. rewrite F. repeat split; auto.
        -- rewrite F. rewrite br_killed_squash by exact F. rewrite Sq. split; [|repeat split; intros; discriminate].
           right. exists (resolve (c_clear c) x). cbn [f_slot]. rewrite clr_now. repeat split. cbn [resolve x_t]. lia.
Qed.

Lemma iter_post c f l win lat : (0 <= c_brmask c)%Z -> f_kind f = KIter lat -> inv1 f (c_now c) l -> zombie_free c f l ->
  (win = true -> fu_cm c f <> None) -> unit_post c f l win.
Proof.
  intros BM K I Z W. unfold unit_post, fu_rest, fu_cm in *. unfold inv1 in I. rewrite K in I.
  destruct f as [k ops slot un]. cbn [f_kind] in K. subst k. destruct un as [| |o]; try (cbn in I; tauto). cbn [f_unit f_slot] in I.
  unfold zombie_free in Z. cbn [f_kind] in Z.
  unfold fu_a in *. cbn [f_kind f_unit f_slot f_ops ctrl issue] in *. rewrite not_flush_all in * by exact BM. cbn [orb] in *.
  destruct I as [(-> & -> & ->)|(x & -> & -> & I)].
  - cbn in *. destruct win; [exfalso; now apply W|]. cbn [survive filter map tl]. destruct (c_flush c); cbn.
    all: split; [left; split; [reflexivity|intros ? []]|]; split; [left; auto|]; repeat split; auto.
  - assert (Dead : squash c x = true -> exists b, (if negb (c_flush c || br_killed c (now_inst x)) then Some (clr c (now_inst x)) else None) = None
       /\ negb (c_flush c || br_killed c (now_inst x)) = b /\ b = false /\
       (match o with Some (u, d) => if fu_flush c && nz (Z.land (e_mask u) (flush_mask c)) then None else Some (u, d) | None => None end) = None).
    { intros Sq. exists false. assert (X : c_flush c || br_killed c (now_inst x) = true).
      { destruct (c_flush c) eqn:F; [reflexivity|]. rewrite br_killed_squash by exact F. exact Sq. }
      rewrite X. repeat split; auto. destruct I as [(-> & _)|(-> & T)]; [reflexivity|]. rewrite now_inst_mask.
      unfold fu_flush, flush_mask. destruct (c_flush c) eqn:F.
      - cbn [orb andb]. unfold nz. specialize (Z eq_refl ltac:(discriminate) x (or_introl eq_refl) T).
        destruct (Z.eqb_spec (Z.land (x_mask x) 65535) 0); [contradiction|reflexivity].
      - unfold squash in Sq. rewrite F in Sq. cbn [orb] in *. apply andb_true_iff in Sq. destruct Sq as [S1 S2]. rewrite S1. unfold nz. rewrite S2. reflexivity. }
    rewrite survive_one. destruct (squash c x) eqn:Sq.
    + destruct (Dead eq_refl) as (b & D1 & D2 & D3 & D4). rewrite D1, D4, D2 in *. rewrite D3 in *. cbn in *. destruct win; [exfalso; now apply W|].
      assert (X : (if c_flush c then @None einst else None) = None) by (destruct (c_flush c); reflexivity). rewrite X.
      split; [left; split; [reflexivity|intros ? []]|]; split; [left; auto|]; repeat split; auto.
    + clear Dead. assert (F : c_flush c = false). { unfold squash in Sq. destruct (c_flush c); [discriminate|reflexivity]. }
      assert (Kl : br_killed c (now_inst x) = false) by (rewrite br_killed_squash; auto).
      rewrite F, Kl in *. cbn [orb negb] in *. set (y := resolve (c_clear c) x).
      assert (O : (match (match (match o with Some (u, d) => if fu_flush c && nz (Z.land (e_mask u) (flush_mask c)) then None else Some (u, d) | None => None end) with
                    Some (u, d) => Some (clr c u, d) | None => None end) with
                   | Some p => Some p | None => Some (clr c (now_inst x), c_now c + lat (e_fn (clr c (now_inst x)))) end)
                  = Some (now_inst y, due_at (KIter lat) y)).
      { destruct I as [(-> & T)|(-> & T)].
        - cbn. rewrite clr_now. do 2 f_equal. subst y. rewrite <- T. cbn. lia.
        - rewrite now_inst_mask. replace (fu_flush c && nz (Z.land (x_mask x) (flush_mask c))) with false.
          + rewrite clr_now. do 2 f_equal. 
          + symmetry. unfold fu_flush, flush_mask. rewrite F. cbn [orb]. unfold squash in Sq. rewrite F in Sq. cbn [orb] in Sq.
            destruct (c_mispred c); [exact Sq|reflexivity]. }
      match goal with |- context [iter_done _ ?oo] => set (oo' := oo) in *; replace oo' with (Some (now_inst y, due_at (KIter lat) y)) in * end.
      2:{ subst oo'. rewrite <- O. destruct o as [[u d]|]; [|reflexivity]. destruct (fu_flush c && nz (Z.land (e_mask u) (flush_mask c))); reflexivity. }
      clear O. clearbody oo'. clear oo'. cbn [fst snd iter_done is_some] in *. unfold fu_b. cbn [f_kind f_unit consume f_ops f_slot].
      assert (Ty : x_t y + 1 < S (c_now c)). { subst y. cbn. destruct I as [(_ & T)|(_ & T)]; lia. }
      split.
      { unfold cm_ok, due. destruct (Nat.leb_spec (due_at (KIter lat) y) (c_now c)) as [D|D].
        - right. exists y, []. rewrite (proj2 (Nat.leb_le _ _) D). repeat split. intros ? [].
        - left. split; [reflexivity|]. intros z [<-|[]]. apply Nat.leb_gt. exact D. }
      destruct win; cbn [andb].
      * destruct (due_at (KIter lat) y <=? c_now c); [|exfalso; now apply W]. cbn [fst snd f_kind f_slot f_ops fu_c f_unit tl].
        rewrite F. split; [left; auto|]. repeat split; auto.
      * cbn [fst snd f_kind f_slot f_ops fu_c f_unit]. rewrite F, Kl, clr_now. fold y.
        split; [|repeat split; intros; discriminate]. right. exists y. repeat split; auto.
Qed.

Lemma fixed_len (L : nat) (st : list item) (lo hi : nat) : StronglySorted (fun x y => x_t x < x_t y) st ->
  Forall (fun x => lo <= x_t x /\ x_t x < hi) st -> length st <= hi - lo.
Proof.
  revert lo. induction st as [|x st IH]; intros lo S F; [cbn; lia|]. inversion S as [|? ? S' G]; subst. inversion F as [|? ? [F1 F2] F']; subst.
  specialize (IH (x_t x + 1) S'). cbn [length]. assert (length st <= hi - (x_t x + 1)); [|lia]. apply IH.
  rewrite Forall_forall in *. intros y Y. specialize (G y Y). specialize (F' y Y). lia.
Qed.
Lemma sorted_filter (f : item -> bool) st : StronglySorted (fun x y => x_t x < x_t y) st -> StronglySorted (fun x y => x_t x < x_t y) (filter f st).
Proof.
  induction st as [|x st IH]; intros S; [constructor|]. inversion S as [|? ? S' G]; subst. cbn. destruct (f x); [|auto].
  constructor; [auto|]. rewrite Forall_forall in *. intros y Y. apply filter_In in Y. apply G. tauto.
Qed.
Lemma sorted_map m st : StronglySorted (fun x y => x_t x < x_t y) st -> StronglySorted (fun x y => x_t x < x_t y) (map (resolve m) st).
Proof.
  induction st as [|x st IH]; intros S; [constructor|]. inversion S as [|? ? S' G]; subst. cbn. constructor; [auto|].
  rewrite Forall_forall in *. intros y Y. apply in_map_iff in Y. destruct Y as (z & <- & Z). cbn. auto.
Qed.
Lemma sorted_snoc st x : StronglySorted (fun x y => x_t x < x_t y) st -> Forall (fun y => x_t y < x_t x) st -> StronglySorted (fun x y => x_t x < x_t y) (st ++ [x]).
Proof.
  induction st as [|y st IH]; intros S F; cbn; [constructor; [constructor|constructor]|]. inversion S as [|? ? S' G]; subst. inversion F; subst.
  constructor; [auto|]. apply Forall_app. split; [exact G|]. constructor; [assumption|constructor].
Qed.

Lemma fixed_post c f l win L : (0 <= c_brmask c)%Z -> 1 <= L -> f_kind f = KFixed L -> inv1 f (c_now c) l -> zombie_free c f l ->
  win = is_some (fu_cm c f) -> unit_post c f l win.
Proof.
  intros BM HL K I Z W. unfold unit_post, fu_rest, fu_cm in *. unfold inv1 in I. rewrite K in I.
  destruct f as [k ops slot un]. cbn [f_kind] in K. subst k. destruct un as [|p|]; try (cbn in I; tauto). cbn [f_unit f_slot] in I.
  unfold zombie_free in Z. cbn [f_kind] in Z.
  destruct I as (st & pend & -> & -> & So & Fo & I).
  unfold fu_a in *. cbn [f_kind f_unit f_slot f_ops ctrl issue] in *. rewrite not_flush_all in * by exact BM.
  set (st1 := survive c st).
  (* the pipe after comb_ctrl *)
  match goal with |- context [length (map ?g ?pp)] => set (p1 := map g pp) in * end.
  assert (P1 : p1 = map (fun x => (now_inst x, due_at (KFixed L) x)) st1).
  { subst p1 st1. unfold survive. rewrite map_map.
    assert (E : (if fu_flush c then filter (fun e : einst * nat => negb (nz (Z.land (e_mask (fst e)) (flush_mask c)))) (map (fun x => (now_inst x, due_at (KFixed L) x)) st)
                 else map (fun x => (now_inst x, due_at (KFixed L) x)) st) = map (fun x => (now_inst x, due_at (KFixed L) x)) (filter (fun x => negb (squash c x)) st)).
    { assert (H : forall x, In x st -> squash c x = fu_flush c && nz (Z.land (x_mask x) (flush_mask c))).
      { intros x X. unfold squash, fu_flush, flush_mask. destruct (c_flush c) eqn:F; [|destruct (c_mispred c); reflexivity]. cbn [orb andb].
        rewrite Forall_forall in Fo. specialize (Z eq_refl ltac:(discriminate) x (in_or_app _ _ _ (or_introl X)) (proj1 (Fo x X))).
        unfold nz. destruct (Z.eqb_spec (Z.land (x_mask x) 65535) 0); [contradiction|reflexivity]. }
      revert H. clear. intros H. induction st as [|x st IH]; [cbn; destruct (fu_flush c); reflexivity|].
      cbn [filter map]. rewrite (H x (or_introl eq_refl)). specialize (IH (fun y Y => H y (or_intror Y))).
      destruct (fu_flush c); cbn [andb negb fst snd].
      - rewrite now_inst_mask. destruct (nz (Z.land (x_mask x) (flush_mask c))); cbn [negb map]; now rewrite IH.
      - cbn [map]. now rewrite IH. }
    rewrite E, map_map. apply map_ext. intros x. cbn [fst snd]. rewrite clr_now, due_resolve. reflexivity. }
  clearbody p1. subst p1.
  assert (So1 : StronglySorted (fun x y => x_t x < x_t y) st1) by (apply sorted_map, sorted_filter, So).
  assert (Fo1 : Forall (fun x => x_t x + 1 < c_now c /\ c_now c <= x_t x + L) st1).
  { rewrite Forall_forall in *. intros y Y. apply in_map_iff in Y. destruct Y as (z & <- & Zz). apply filter_In in Zz. cbn. apply Fo. tauto. }
  assert (Len1 : length st1 < limit L).
  { unfold limit. destruct (Nat.eqb_spec L 0) as [E|E]; [lia|]. assert (length st1 <= (c_now c - 1) - (c_now c - L)); [|].
    { apply (fixed_len L); [exact So1|]. rewrite Forall_forall in *. intros y Y. specialize (Fo1 y Y). lia. }
    destruct st1; cbn [length] in *; [lia|]. inversion Fo1; subst. lia. }
  rewrite survive_app. fold st1.
  (* the pending one *)
  assert (Pd : exists en pd, survive c pend = pd /\
     (match slot with Some u => if is_some en then Some (clr c u) else None | None => None end) = en /\
     match slot with Some u => negb (c_flush c || br_killed c u) | None => false end = is_some en /\
     ((en = None /\ pd = [] /\ (if is_some en then slot else None) = None) \/ exists y u0, en = Some (now_inst y) /\ pd = [y] /\ S (x_t y) = c_now c /\ slot = Some u0 /\ br_killed c u0 = false /\ c_flush c = false)).
  { destruct I as [(-> & ->)|(x & -> & -> & T)].
    - exists None, []. repeat split; auto.
    - rewrite survive_one. destruct (c_flush c) eqn:F.
      + cbn. exists None. eexists. split; [reflexivity|]. unfold squash. rewrite F. cbn. repeat split; auto.
      + cbn [orb]. rewrite br_killed_squash by exact F. destruct (squash c x) eqn:Sq; cbn [negb].
        * exists None, []. repeat split; auto.
        * exists (Some (clr c (now_inst x))). eexists. repeat split. right. exists (resolve (c_clear c) x), (now_inst x).
          rewrite clr_now. repeat split; auto. rewrite br_killed_squash by exact F. exact Sq. }
  destruct Pd as (en & pd & E1 & E2 & E3 & E4). rewrite E1. clear E1.
  rewrite E3 in *. clear E3. rewrite E2 in *. clear E2.
  set (q := st1 ++ pd).
  set (p2 := match en with Some u => if length (map (fun x => (now_inst x, due_at (KFixed L) x)) st1) <? limit L then map (fun x => (now_inst x, due_at (KFixed L) x)) st1 ++ [(u, c_now c + L - 1)] else map (fun x => (now_inst x, due_at (KFixed L) x)) st1 | None => map (fun x => (now_inst x, due_at (KFixed L) x)) st1 end) in *.
  assert (P2 : p2 = map (fun x => (now_inst x, due_at (KFixed L) x)) q).
  { subst p2 q. destruct E4 as [(-> & -> & _)|(y & u0 & -> & -> & T & _)]; [now rewrite app_nil_r|].
    rewrite map_length. rewrite (proj2 (Nat.ltb_lt _ _) Len1). rewrite map_app. cbn. do 3 f_equal. lia. }
  clearbody p2. subst p2.
  assert (Soq : StronglySorted (fun x y => x_t x < x_t y) q).
  { subst q. destruct E4 as [(_ & -> & _)|(y & u0 & _ & -> & T & _)]; [now rewrite app_nil_r|]. apply sorted_snoc; [exact So1|].
    rewrite Forall_forall in *. intros z Zz. specialize (Fo1 z Zz). lia. }
  assert (Foq : Forall (fun x => x_t x < c_now c /\ c_now c <= x_t x + L) q).
  { subst q. apply Forall_app. split; [rewrite Forall_forall in *; intros z Zz; specialize (Fo1 z Zz); lia|].
    destruct E4 as [(_ & -> & _)|(y & u0 & _ & -> & T & _)]; constructor; [lia|constructor]. }
  clearbody q. cbn [fst snd] in *.
  assert (FD : front_done (c_now c) (map (fun x => (now_inst x, due_at (KFixed L) x)) q) = match q with [] => None | x :: _ => if x_t x + L <=? c_now c then Some (now_inst x) else None end).
  { destruct q; reflexivity. }
  rewrite FD in *. clear FD.
  assert (Tl : forall x tl, q = x :: tl -> Forall (fun y => c_now c < x_t y + L) tl).
  { intros x tl ->. inversion Soq as [|? ? _ G]; subst. inversion Foq as [|? ? [A B] F']; subst. rewrite Forall_forall in *. intros y Y. specialize (G y Y). lia. }
  split.
  { unfold cm_ok, due. destruct q as [|x tl]; [left; split; [reflexivity|intros ? []]|]. cbn [due_at].
    specialize (Tl x tl eq_refl). rewrite Forall_forall in Tl. destruct (Nat.leb_spec (x_t x + L) (c_now c)) as [D|D].
    - right. exists x, tl. repeat split; [now apply Nat.leb_le|]. intros y Y. apply Nat.leb_gt. apply Tl, Y.
    - left. split; [reflexivity|]. intros y [<-|Y]; apply Nat.leb_gt; [exact D|apply Tl, Y]. }
  set (q2 := if win then tl q else q).
  assert (C2 : consume (KFixed L) (c_now c) (is_some en) win (UFixed (map (fun x => (now_inst x, due_at (KFixed L) x)) q)) =
               (UFixed (map (fun x => (now_inst x, due_at (KFixed L) x)) q2), length q2 <? limit L)).
  { unfold consume. subst q2. destruct q as [|x tl]; [destruct win; reflexivity|]. cbn [map due_at]. destruct (Nat.leb_spec (x_t x + L) (c_now c)) as [D|D].
    - cbn in W. subst win. cbn [andb]. rewrite map_length. reflexivity.
    - cbn in W. subst win. cbn [andb]. cbn [length]. rewrite map_length. reflexivity. }
  assert (Fo2 : Forall (fun x => x_t x + 1 < S (c_now c) /\ S (c_now c) <= x_t x + L) q2).
  { subst q2. destruct q as [|x tl]; [destruct win; constructor|]. specialize (Tl x tl eq_refl). inversion Foq as [|? ? [A B] F']; subst.
    assert (Forall (fun x => x_t x + 1 < S (c_now c) /\ S (c_now c) <= x_t x + L) tl).
    { rewrite Forall_forall in *. intros y Y. specialize (Tl y Y). specialize (F' y Y). lia. }
    destruct (Nat.leb_spec (x_t x + L) (c_now c)) as [D|D]; cbn; [assumption|]. constructor; [lia|assumption]. }
  assert (So2 : StronglySorted (fun x y => x_t x < x_t y) q2).
  { subst q2. destruct win; [|exact Soq]. destruct q; [exact Soq|]. now inversion Soq. }
  assert (Len2 : length q2 <? limit L = true).
  { apply Nat.ltb_lt. unfold limit. destruct (Nat.eqb_spec L 0) as [E|E]; [lia|]. assert (length q2 <= c_now c - (c_now c + 1 - L)).
    { apply (fixed_len L); [exact So2|]. rewrite Forall_forall in *. intros y Y. specialize (Fo2 y Y). lia. }
    destruct q2; cbn [length] in *; [lia|]. inversion Fo2; subst. lia. }
  unfold fu_b. cbn [f_kind f_unit f_ops f_slot]. rewrite C2, Len2. cbn [fst snd f_kind f_slot f_ops fu_c f_unit].
  assert (X : (if c_flush c then @None einst else None) = None) by (destruct (c_flush c); reflexivity). rewrite X.
  split; [|repeat split; auto]. exists q2, []. rewrite app_nil_r. repeat split; auto.
Qed.

Lemma unit_step c f l win : c_now c <> 0 -> (0 <= c_brmask c)%Z -> inv1 f (c_now c) l -> zombie_free c f l ->
  (forall L, f_kind f = KFixed L -> 1 <= L /\ win = is_some (fu_cm c f)) ->
  (win = true -> fu_cm c f <> None) -> unit_post c f l win.
Proof.
  intros Hn BM I Z FX W. destruct (f_kind f) as [|L|lat] eqn:K.
  - now apply single_post.
  - destruct (FX L eq_refl). now apply (fixed_post c f l win L).
  - now apply (iter_post c f l win lat).
Qed.

(** *** The port *)
Lemma xid_now x : e_id (now_inst x) = xid x. Proof. reflexivity. Qed.
Lemma filter_not_in n l : ~ In n (xids l) -> filter (not_id (Some n)) l = l.
Proof.
  induction l as [|x l IH]; intros H; [reflexivity|]. cbn in *. destruct (Nat.eqb_spec (xid x) n) as [E|E]; [exfalso; auto|].
  cbn. f_equal. apply IH. auto.
Qed.
Lemma filter_none l : filter (not_id None) l = l.
Proof. induction l as [|x l IH]; [reflexivity|]. cbn. now rewrite IH. Qed.
Lemma xids_app a b : xids (a ++ b) = xids a ++ xids b. Proof. apply map_app. Qed.
Lemma in_concat_nth {A} (ls : list (list A)) k l x : nth_error ls k = Some l -> In x l -> In x (concat ls).
Proof. intros N I. apply in_concat. exists l. split; [|exact I]. eapply nth_error_In. exact N. Qed.
Lemma NoDup_app_l {A} (a b : list A) : NoDup (a ++ b) -> NoDup a.
Proof. induction a as [|x a IH]; intros H; [constructor|]. inversion H as [|? ? N H']; subst. constructor; [|auto]. intros X. apply N, in_or_app. now left. Qed.
Lemma NoDup_app_r {A} (a b : list A) : NoDup (a ++ b) -> NoDup b.
Proof. induction a as [|x a IH]; intros H; [exact H|]. inversion H; auto. Qed.
Lemma NoDup_app_disj {A} (a b : list A) x : NoDup (a ++ b) -> In x a -> In x b -> False.
Proof.
  induction a as [|y a IH]; intros H I J; [destruct I|]. inversion H as [|? ? N H']; subst. destruct I as [->|I]; [|auto].
  apply N, in_or_app. now right.
Qed.

Definition no_due (c : ctl) (f : fu) (l : list item) : Prop := forall y, In y (survive c l) -> due (f_kind f) (c_now c) y = false.
Definition won (c : ctl) (fs : list fu) (ls : list (list item)) (o : option einst) : Prop :=
  exists k f l x tl, nth_error fs k = Some f /\ nth_error ls k = Some l /\ survive c l = x :: tl /\ o = Some (now_inst x) /\
    due (f_kind f) (c_now c) x = true /\
    forall j f' l', j < k -> nth_error fs j = Some f' -> nth_error ls j = Some l' -> no_due c f' l'.
Definition unit_after (c : ctl) (o : option einst) (f : fu) (l : list item) (fr : fu * bool) : Prop :=
  let l2 := filter (not_id (option_map e_id o)) (survive c l) in
  inv1 (fst (fu_c c fr)) (S (c_now c)) l2 /\ f_kind (fst fr) = f_kind f /\ f_ops (fst fr) = f_ops f /\
  (snd fr = true <-> f_slot (fst (fu_c c fr)) = None) /\ (snd fr = true -> f_slot (fst fr) = None) /\
  (f_slot (fst fr) = None <-> (match f_kind f with KFixed _ => True | _ => l2 = [] end)).

Lemma collect_ok c : c_now c <> 0 -> (0 <= c_brmask c)%Z -> forall fs ls taken,
  Forall2 (fun f l => inv1 f (c_now c) l /\ zombie_free c f l) fs ls ->
  (forall i f L, nth_error fs i = Some f -> f_kind f = KFixed L -> i = 0 /\ 1 <= L /\ taken = false) ->
  NoDup (xids (concat (map (survive c) ls))) ->
  let r := fst (collect c (map (fu_a c) fs) taken) in
  let o := snd (collect c (map (fu_a c) fs) taken) in
  (o = None \/ (taken = false /\ won c fs ls o)) /\
  (taken = false -> o = None -> forall k f l, nth_error fs k = Some f -> nth_error ls k = Some l -> no_due c f l) /\
  length r = length fs /\
  (forall k f l, nth_error fs k = Some f -> nth_error ls k = Some l -> exists fr, nth_error r k = Some fr /\ unit_after c o f l fr) /\
  (forall k f l, nth_error fs k = Some f -> nth_error ls k = Some l -> cm_ok (f_kind f) (c_now c) (survive c l) (fu_cm c f)).
Proof.
  intros Hn BM. induction fs as [|f fs IH]; intros ls taken H FX ND; inversion H as [|? l ? ls' [I Z] H']; subst; cbv zeta.
  - cbn. split; [now left|]. split; [intros _ _ [|k] ? ? E; discriminate|]. split; [reflexivity|]. split; intros [|k] ? ? E; discriminate.
  - cbn [map collect]. destruct (fu_a c f) as [[f1 cm] en] eqn:FA.
    assert (CM : fu_cm c f = cm) by (unfold fu_cm; now rewrite FA).
    assert (RS : forall w, fu_rest c w f = fu_b c w en f1) by (intros w; unfold fu_rest; now rewrite FA).
    set (win := negb taken && is_some cm).
    assert (U : unit_post c f l win).
    { apply unit_step; auto.
      - intros L KL. destruct (FX 0 f L eq_refl KL) as (_ & HL & ->). split; [exact HL|]. rewrite CM. reflexivity.
      - intros W. rewrite CM. subst win. destruct taken; [discriminate|]. destruct cm; [discriminate|discriminate]. }
    cbn [map concat] in ND. rewrite xids_app in ND.
    specialize (IH ls' (taken || is_some cm) H').
    destruct (collect c (map (fu_a c) fs) (taken || is_some cm)) as [r o] eqn:CO. cbn [fst snd] in *.
    destruct IH as (A & B & C & D & E).
    { intros i g L N KL. destruct (FX (S i) g L N KL) as (X & _). discriminate. }
    { now apply NoDup_app_r in ND. }
    destruct U as (U1 & U2 & U3 & U4 & U5 & U6 & U7). rewrite CM in U1. rewrite RS in *.
    set (l1 := survive c l) in *.
    destruct U1 as [[Ec Ud]|(x & tl & El & Ec & Ud & Ut)].
    + (* the head completes nothing *)
      assert (W : win = false). { subst win. rewrite Ec. cbn. apply andb_false_r. }
      rewrite W in *. rewrite Ec in A, B. cbn [is_some] in A, B. rewrite orb_false_r in A, B.
      assert (L2 : filter (not_id (option_map e_id o)) l1 = l1).
      { destruct A as [->|(_ & k & f' & l' & x & tl & N1 & N2 & E1 & -> & _)]; [apply filter_none|].
        cbn [option_map]. rewrite xid_now. apply filter_not_in. intros X. eapply NoDup_app_disj; [exact ND|exact X|].
        apply in_map. apply in_concat_nth with (k := k) (l := survive c l'); [now apply map_nth_error|]. rewrite E1. now left. }
      split; [|split; [|split; [|split]]].
      * destruct A as [->|(Tk & k & f' & l' & x & tl & N1 & N2 & E1 & E2 & E3 & E4)]; [now left|right]. split; [exact Tk|].
        exists (S k), f', l', x, tl. repeat split; auto. intros [|j] g m J G M.
        -- cbn in G, M. injection G as <-. injection M as <-. exact Ud.
        -- apply (E4 j); auto. lia.
      * intros Tk On [|k] g m G M; [cbn in G, M; injection G as <-; injection M as <-; exact Ud|]. exact (B Tk On k g m G M).
      * cbn. now rewrite C.
      * intros [|k] g m G M; [|exact (D k g m G M)]. cbn in G, M. injection G as <-. injection M as <-. eexists. split; [reflexivity|].
        unfold unit_after. fold l1. rewrite L2. auto 10.
      * intros [|k] g m G M; [|exact (E k g m G M)]. cbn in G, M. injection G as <-. injection M as <-. rewrite CM. left. auto.
    + rewrite Ec in A, B. cbn [is_some] in A, B. rewrite orb_true_r in A, B.
      assert (On : o = None) by (destruct A as [->|(X & _)]; [reflexivity|discriminate]). subst o.
      assert (CK : forall k g m, nth_error (f :: fs) k = Some g -> nth_error (l :: ls') k = Some m -> cm_ok (f_kind g) (c_now c) (survive c m) (fu_cm c g)).
      { intros [|k] g m G M; [|exact (E k g m G M)]. cbn in G, M. injection G as <-. injection M as <-. rewrite CM. right. exists x, tl. auto. }
      destruct win eqn:W.
      * assert (Tk : taken = false). { subst win. apply andb_true_iff in W. destruct W as [W _]. destruct taken; [discriminate|reflexivity]. }
        rewrite Ec. split; [|split; [|split; [|split; [|exact CK]]]].
        -- right. split; [exact Tk|]. exists 0, f, l, x, tl. repeat split; auto. intros j ? ? J. lia.
        -- discriminate.
        -- cbn. now rewrite C.
        -- assert (Nx : forall y, In y (concat (map (survive c) ls')) -> xid y <> xid x).
           { intros y Y Eq. eapply NoDup_app_disj; [exact ND| |apply in_map, Y]. rewrite Eq, El. now left. }
           assert (Nt : filter (not_id (Some (xid x))) l1 = tl).
           { rewrite El. cbn. rewrite Nat.eqb_refl. cbn. apply filter_not_in. rewrite El in ND. cbn in ND. inversion ND as [|? ? NN ?]; subst.
             intros X. apply NN, in_or_app. now left. }
           intros [|k] g m G M.
           ++ cbn in G, M. injection G as <-. injection M as <-. eexists. split; [reflexivity|].
              unfold unit_after. fold l1. cbn [option_map]. rewrite xid_now, Nt. rewrite El in *. cbn [List.tl] in *. auto 10.
           ++ destruct (D k g m G M) as (fr & F1 & F2). exists fr. split; [exact F1|]. unfold unit_after in *. cbn [option_map] in *. rewrite xid_now.
              rewrite filter_none in F2. rewrite filter_not_in; [exact F2|]. intros X. apply in_map_iff in X. destruct X as (y & Ey & Y).
              apply (Nx y); [|exact Ey]. apply in_concat_nth with (k := k) (l := survive c m); [now apply map_nth_error|exact Y].
      * split; [now left|]. split; [intros Tk; subst win; rewrite Tk, Ec in W; discriminate|]. split; [cbn; now rewrite C|]. split; [|exact CK].
        intros [|k] g m G M; [|exact (D k g m G M)]. cbn in G, M. injection G as <-. injection M as <-. eexists. split; [reflexivity|].
        unfold unit_after. fold l1. rewrite filter_none. auto 10.
Qed.

(** *** Insertion *)
Lemma insert_nth u r : (forall i j f g b b', nth_error r i = Some (f, b) -> nth_error r j = Some (g, b') -> f_ops f (e_op u) = true -> f_ops g (e_op u) = true -> i = j) ->
  (forall k f b, nth_error r k = Some (f, b) -> f_ops f (e_op u) = true -> negb (is_some (f_slot f)) || b = true) ->
  forall j, nth_error (insert u r) j = option_map (fun fr => if f_ops (fst fr) (e_op u) then (Fu (f_kind (fst fr)) (f_ops (fst fr)) (Some u) (f_unit (fst fr)), snd fr) else fr) (nth_error r j).
Proof.
  induction r as [|[f b] r IH]; intros U F j; [destruct j; reflexivity|]. cbn [insert].
  destruct (f_ops f (e_op u)) eqn:O.
  - rewrite (F 0 f b eq_refl O). cbn [andb]. destruct j as [|j]; cbn [nth_error option_map fst snd].
    + now rewrite O.
    + destruct (nth_error r j) as [[g b']|] eqn:N; [|reflexivity]. cbn [option_map fst snd].
      destruct (f_ops g (e_op u)) eqn:O2; [|reflexivity]. pose proof (U 0 (S j) f g b b' eq_refl N O O2). discriminate.
  - cbn [andb]. destruct j as [|j]; cbn [nth_error option_map fst snd]; [now rewrite O|].
    apply IH.
    + intros i k f' g' b1 b2 N1 N2 O1 O2. pose proof (U (S i) (S k) f' g' b1 b2 N1 N2 O1 O2). lia.
    + intros k f' b1 N O1. apply (F (S k) f' b1 N O1).
Qed.
Lemma inv1_insert f now l c u : inv1 f (S now) l -> f_slot f = None -> c_now c = now ->
  inv1 (Fu (f_kind f) (f_ops f) (Some (clr c u)) (f_unit f)) (S now) (l ++ [Item u (c_now c) [c_clear c]]).
Proof.
  intros I S E. unfold inv1 in *. cbn [f_kind f_unit f_slot].
  assert (X : clr c u = now_inst (Item u (c_now c) [c_clear c])) by reflexivity.
  destruct (f_kind f) as [|L|lat], (f_unit f) as [|p|o]; try contradiction; rewrite S in *.
  - destruct I as [(_ & ->)|(x & H & _)]; [|discriminate]. right. eexists. split; [rewrite X; reflexivity|]. split; [reflexivity|]. cbn. lia.
  - destruct I as (st & pend & -> & P & So & Fo & [(_ & ->)|(x & H & _)]); [|discriminate]. rewrite app_nil_r.
    exists st, [Item u (c_now c) [c_clear c]]. repeat split; auto. right. eexists. repeat split; [rewrite X; reflexivity|]. cbn. lia.
  - destruct I as [(_ & -> & ->)|(x & H & _)]; [|discriminate]. right. eexists. split; [rewrite X; reflexivity|]. split; [reflexivity|].
    left. split; [reflexivity|]. cbn. lia.
Qed.

Record inv (now : nat) (fs : list fu) (h : hist) : Prop := Inv {
  v_len : length (live h) = length fs;
  v_units : forall k f l, nth_error fs k = Some f -> nth_error (live h) k = Some l -> inv1 f now l;
  v_wf : well_formed fs;
  v_perm : Permutation (accepted h) (delivered h ++ squashed h ++ xids (concat (live h)));
  v_nodup : NoDup (accepted h);
  v_now : now <> 0
}.
Lemma Forall2_nth {A B} (P : A -> B -> Prop) : forall l1 l2, length l2 = length l1 ->
  (forall k a b, nth_error l1 k = Some a -> nth_error l2 k = Some b -> P a b) -> Forall2 P l1 l2.
Proof.
  induction l1 as [|a l1 IH]; intros [|b l2] L H; try discriminate; constructor; [apply (H 0); reflexivity|].
  apply IH; [cbn in L; lia|]. intros k. apply (H (S k)).
Qed.
Lemma NoDup_xids_live now fs h : inv now fs h -> NoDup (xids (concat (live h))).
Proof.
  intros V. pose proof (Permutation_NoDup (v_perm _ _ _ V) (v_nodup _ _ _ V)) as N. apply NoDup_app_r in N. now apply NoDup_app_r in N.
Qed.
Lemma xids_survive c l : xids (survive c l) = xids (filter (fun x => negb (squash c x)) l).
Proof. unfold survive, xids. rewrite map_map. reflexivity. Qed.
Lemma concat_survive c ls : xids (concat (map (survive c) ls)) = xids (filter (fun x => negb (squash c x)) (concat ls)).
Proof.
  induction ls as [|l ls IH]; [reflexivity|]. cbn [map concat]. rewrite filter_app, !xids_app, IH, xids_survive. reflexivity.
Qed.
Lemma NoDup_xids_filter f l : NoDup (xids l) -> NoDup (xids (filter f l)).
Proof.
  induction l as [|a l IH]; cbn; intros N; [constructor|]. inversion N as [|? ? NI N']; subst. destruct (f a); [|exact (IH N')].
  cbn. constructor; [|exact (IH N')]. intros X. apply NI. apply in_map_iff in X. destruct X as (y & E & Y). apply filter_In in Y. apply in_map_iff. exists y. tauto.
Qed.
Lemma split_perm (f : item -> bool) l : Permutation l (filter f l ++ filter (fun x => negb (f x)) l).
Proof. induction l as [|a l IH]; [constructor|]. cbn. destruct (f a); cbn; [now constructor|]. now apply Permutation_cons_app. Qed.

(** The winner leaves the list. *)
Lemma remove_perm n l : NoDup (xids l) -> In n (xids l) -> Permutation (xids l) (n :: xids (filter (not_id (Some n)) l)).
Proof.
  induction l as [|a l IH]; cbn; intros N I; [destruct I|]. inversion N as [|? ? NI N']; subst.
  destruct (Nat.eqb_spec (xid a) n) as [E|E]; cbn.
  - subst n. rewrite filter_not_in by exact NI. reflexivity.
  - destruct I as [I|I]; [contradiction|]. rewrite (IH N' I) at 1. apply perm_swap.
Qed.
Lemma concat_filter {A} (f : A -> bool) ls : concat (map (filter f) ls) = filter f (concat ls).
Proof. induction ls as [|l ls IH]; [reflexivity|]. cbn. now rewrite filter_app, IH. Qed.
(** One unit takes the new operation. *)
Lemma enter_perm c u fs : forall ls, length ls = length fs ->
  (exists k f, nth_error fs k = Some f /\ f_ops f (e_op u) = true) ->
  (forall i j f g, nth_error fs i = Some f -> nth_error fs j = Some g -> f_ops f (e_op u) = true -> f_ops g (e_op u) = true -> i = j) ->
  Permutation (xids (concat (map (fun fl => enter c (Some u) (fst fl) (snd fl)) (combine fs ls)))) (e_id u :: xids (concat ls)).
Proof.
  induction fs as [|f fs IH]; intros [|l ls] L (k & g & N & O) U; try discriminate; [destruct k; discriminate|].
  cbn [combine map concat fst snd]. cbn [enter]. rewrite !xids_app. destruct (f_ops f (e_op u)) eqn:Of.
  - assert (X : concat (map (fun fl => enter c (Some u) (fst fl) (snd fl)) (combine fs ls)) = concat ls).
    { assert (Hn : forall g, In g fs -> f_ops g (e_op u) = false).
      { intros g0 G. apply In_nth_error in G. destruct G as (m & M). destruct (f_ops g0 (e_op u)) eqn:Og; [|reflexivity].
        pose proof (U 0 (S m) f g0 eq_refl M Of Og). discriminate. }
      cbn in L. injection L as L. clear -Hn L. revert ls L. induction fs as [|g fs IH]; intros [|l ls] L; try discriminate; [reflexivity|].
      cbn. rewrite (Hn g (or_introl eq_refl)). f_equal. apply IH; [|cbn in L; lia]. intros x X. apply Hn. now right. }
    cbn [enter] in X. rewrite X. rewrite xids_app. cbn. rewrite <- app_assoc. symmetry. apply Permutation_middle.
  - destruct k as [|k]; [cbn in N; injection N as <-; congruence|].
    rewrite (IH ls); [|cbn in L; lia|exists k, g; auto|]. 
    + symmetry. apply Permutation_middle.
    + intros i j f' g' N1 N2 O1 O2. pose proof (U (S i) (S j) f' g' N1 N2 O1 O2). lia.
Qed.
Lemma nth_error_combine {A B} (l1 : list A) (l2 : list B) k a b : nth_error l1 k = Some a -> nth_error l2 k = Some b -> nth_error (combine l1 l2) k = Some (a, b).
Proof.
  revert l2 k. induction l1 as [|x l1 IH]; intros [|y l2] [|k] H1 H2; try discriminate; cbn in *; [congruence|]. now apply IH.
Qed.
Lemma nth_error_combine_inv {A B} (l1 : list A) (l2 : list B) k p : nth_error (combine l1 l2) k = Some p -> nth_error l1 k = Some (fst p) /\ nth_error l2 k = Some (snd p).
Proof.
  revert l2 k. induction l1 as [|x l1 IH]; intros [|y l2] [|k] H; try discriminate; cbn in *; [injection H as <-; auto|]. now apply IH.
Qed.

Lemma map_combine_r {A B C D} (g : B -> C) (F : A -> C -> D) : forall (l1 : list A) (l2 : list B),
  map (fun p => F (fst p) (g (snd p))) (combine l1 l2) = map (fun p => F (fst p) (snd p)) (combine l1 (map g l2)).
Proof. induction l1 as [|a l1 IH]; intros [|b l2]; try reflexivity. cbn. now rewrite IH. Qed.

Section STEP.
Variables (now : nat) (fs : list fu) (h : hist) (c : ctl) (iss : option einst).
Hypothesis V : inv now fs h.
Hypothesis Hc : c_now c = now.
Hypothesis BM : (0 <= c_brmask c)%Z.
Hypothesis NZ : no_zombie c fs h.

Lemma step_units :
  let r := fst (exec c fs) in let o := winner c fs in
  (o = None \/ won c fs (live h) o) /\
  (o = None -> forall k f l, nth_error fs k = Some f -> nth_error (live h) k = Some l -> no_due c f l) /\
  length r = length fs /\
  (forall k f l, nth_error fs k = Some f -> nth_error (live h) k = Some l -> exists fr, nth_error r k = Some fr /\ unit_after c o f l fr) /\
  (forall k f l, nth_error fs k = Some f -> nth_error (live h) k = Some l -> cm_ok (f_kind f) (c_now c) (survive c l) (fu_cm c f)).
Proof.
  pose proof V as [L U W P N T]. destruct (collect_ok c) with (fs := fs) (ls := live h) (taken := false) as (A & B & C & D & E).
  - rewrite Hc. exact T.
  - exact BM.
  - apply Forall2_nth; [exact L|]. intros k f l F1 F2. split; [rewrite Hc; exact (U k f l F1 F2)|].
    intros FL KS x X TX. exact (NZ FL k f l x F1 F2 X KS TX).
  - intros i f L0 F1 F2. destruct W as [_ W]. destruct (W i f L0 F1 F2). auto.
  - rewrite concat_survive. apply NoDup_xids_filter. exact (NoDup_xids_live _ _ _ V).
  - cbv zeta. unfold winner, exec. split; [destruct A as [A|[_ A]]; auto|]. split; [exact (B eq_refl)|]. auto.
Qed.

Hypothesis E : env_ok c iss fs h.

Lemma step_inv : inv (S now) (port_step c iss fs) (h_step c iss (option_map e_id (winner c fs)) fs h).
Proof.
  pose proof V as [L U [W1 W2] P N T]. pose proof E as [_ E1 E2 E3].
  destruct step_units as (A & B & C & D & _). set (r := fst (exec c fs)) in *. set (o := winner c fs) in *.
  set (ls2 := map (fun l => filter (not_id (option_map e_id o)) (survive c l)) (live h)).
  assert (Live : live (h_step c iss (option_map e_id o) fs h) = map (fun fl => enter c iss (fst fl) (snd fl)) (combine fs ls2)).
  { exact (map_combine_r (fun l => filter (not_id (option_map e_id o)) (survive c l)) (enter c iss) fs (live h)). }
  assert (Lr : forall k fr, nth_error r k = Some fr -> exists f l, nth_error fs k = Some f /\ nth_error (live h) k = Some l /\ unit_after c o f l fr).
  { intros k fr F. assert (K : k < length r) by (apply nth_error_Some; congruence). rewrite C in K.
    destruct (nth_error fs k) as [f|] eqn:F1; [|apply nth_error_None in F1; lia].
    destruct (nth_error (live h) k) as [l|] eqn:F2; [|apply nth_error_None in F2; lia].
    destruct (D k f l F1 F2) as (fr' & G & X). exists f, l. assert (fr' = fr) by congruence. subst fr'. auto. }
  set (r1 := map (fu_c c) r).
  assert (N1 : forall k, nth_error r1 k = option_map (fu_c c) (nth_error r k)) by (intros k; apply nth_error_map).
  assert (Uq : forall op i j f g b b', nth_error r1 i = Some (f, b) -> nth_error r1 j = Some (g, b') -> f_ops f op = true -> f_ops g op = true -> i = j).
  { intros op i j f g b b' X Y O1 O2. rewrite N1 in X, Y. destruct (nth_error r i) as [fr|] eqn:R1; [|discriminate]. destruct (nth_error r j) as [gr|] eqn:R2; [|discriminate].
    destruct (Lr _ _ R1) as (f' & l' & F1 & F2 & F3). destruct (Lr _ _ R2) as (g' & m' & G1 & G2 & G3).
    cbn in X, Y. injection X as <- <-. injection Y as <- <-. cbn [f_ops] in O1, O2.
    apply (W1 i j f' g' op F1 G1). { now rewrite <- (proj1 (proj2 (proj2 F3))). } { now rewrite <- (proj1 (proj2 (proj2 G3))). } }
  (* the unit chosen for the new operation *)
  assert (Ch : forall u, iss = Some u -> c_flush c = false /\ c_mispred c = false /\
      exists k f l fr, nth_error fs k = Some f /\ nth_error (live h) k = Some l /\ nth_error r k = Some fr /\ unit_after c o f l fr /\ f_ops f (e_op u) = true /\ (negb (is_some (f_slot (fst fr))) || snd fr = true)).
  { intros u Iu. destruct E2 as [F M]; [congruence|]. split; [exact F|]. split; [exact M|].
    specialize (E1 u Iu). unfold fu_ready in E1. fold r in E1. apply andb_true_iff in E1. destruct E1 as [_ E1]. apply existsb_exists in E1.
    destruct E1 as (fr & X & Y). apply In_nth_error in X. destruct X as (k & X). destruct (Lr k fr X) as (f & l & F1 & F2 & F3).
    apply andb_true_iff in Y. destruct Y as [Y1 Y2]. exists k, f, l, fr. split; [exact F1|]. split; [exact F2|]. split; [exact X|]. split; [exact F3|]. split; [|exact Y2].
    rewrite <- (proj1 (proj2 (proj2 F3))). exact Y1. }
  (* next units, pointwise *)
  assert (Nx : forall k f, nth_error (port_step c iss fs) k = Some f -> exists f0 l fr, nth_error fs k = Some f0 /\ nth_error (live h) k = Some l /\ unit_after c o f0 l fr /\
       f_kind f = f_kind f0 /\ f_ops f = f_ops f0 /\
       inv1 f (S (c_now c)) (enter c iss f0 (filter (not_id (option_map e_id o)) (survive c l)))).
  { intros k f F. unfold port_step, pipeline in F. fold r in F. fold r1 in F.
    destruct iss as [u|] eqn:Iu.
    - destruct (Ch u eq_refl) as (Fl & Mp & k0 & f0 & l0 & fr0 & G1 & G2 & G3 & G4 & G5 & G6).
      assert (Bk : br_killed c u = false) by (unfold br_killed; now rewrite Mp). rewrite Fl, Bk in F. cbn [orb] in F.
      rewrite nth_error_map in F. rewrite insert_nth in F.
      + rewrite N1 in F. destruct (nth_error r k) as [fr|] eqn:R; [|discriminate]. destruct (Lr _ _ R) as (f1 & l & F1 & F2 & F3).
        exists f1, l, fr. split; [exact F1|]. split; [exact F2|]. split; [exact F3|]. destruct F3 as (H1 & H2 & H3 & H4 & H5 & H6).
        cbn [option_map] in F. cbn [enter]. rewrite <- H3. assert (Oc : f_ops (fst (fu_c c fr)) = f_ops (fst fr)) by reflexivity.
        rewrite Oc in F. cbn [clr with_mask e_op] in F. destruct (f_ops (fst fr) (e_op u)) eqn:O.
        * injection F as <-. cbn [fst f_kind f_ops]. rewrite H2. split; [reflexivity|]. split; [reflexivity|].
          assert (k = k0). { apply (W1 k k0 f1 f0 (e_op u)); auto. now rewrite <- H3. } subst k0.
          assert (fr0 = fr) by congruence. subst fr0. rewrite <- H2.
          assert (Sn : f_slot (fst (fu_c c fr)) = None).
          { apply orb_true_iff in G6. destruct G6 as [G6|G6]; [|now apply H4]. cbn. rewrite Fl. destruct (f_slot (fst fr)); [discriminate|reflexivity]. }
          apply (inv1_insert (fst (fu_c c fr)) (c_now c) _ c u H1 Sn eq_refl).
        * injection F as <-. cbn [fst f_kind f_ops]. rewrite <- H2. split; [reflexivity|]. split; [reflexivity|exact H1].
      + intros i j f' g b b'. apply Uq.
      + intros i f' b X O. rewrite N1 in X. destruct (nth_error r i) as [fr|] eqn:R; [|discriminate]. destruct (Lr _ _ R) as (f1 & l & F1 & F2 & F3).
        cbn in X. injection X as <- <-. cbn [f_ops f_slot] in *. cbn [clr with_mask e_op] in O.
        assert (i = k0). { apply (W1 i k0 f1 f0 (e_op u)); auto. now rewrite <- (proj1 (proj2 (proj2 F3))). } subst k0.
        assert (fr0 = fr) by congruence. subst fr0. rewrite Fl. destruct (f_slot (fst fr)) as [v|]; [|reflexivity]. destruct (br_killed c v); [reflexivity|exact G6].
    - rewrite nth_error_map, N1 in F. destruct (nth_error r k) as [fr|] eqn:R; [|discriminate]. destruct (Lr _ _ R) as (f1 & l & F1 & F2 & F3).
      cbn in F. injection F as <-. exists f1, l, fr. split; [exact F1|]. split; [exact F2|]. split; [exact F3|]. destruct F3 as (H1 & H2 & H3 & _).
      cbn [f_kind f_ops]. repeat split; auto. }
  assert (Lp : length (port_step c iss fs) = length fs).
  { unfold port_step, pipeline. fold r. fold r1. assert (LI : forall u q, length (insert u q) = length q).
    { intros u q. induction q as [|[f b] q IH]; [reflexivity|]. cbn. destruct (_ && _); cbn; congruence. }
    destruct iss as [u|]; [destruct (_ || _)|]; rewrite map_length, ?LI; subst r1; rewrite map_length; exact C. }
  assert (LL : length (live (h_step c iss (option_map e_id o) fs h)) = length fs).
  { rewrite Live, map_length, combine_length. subst ls2. rewrite map_length. lia. }
  assert (Bck : forall k f l, nth_error fs k = Some f -> nth_error (live h) k = Some l ->
     nth_error (live (h_step c iss (option_map e_id o) fs h)) k = Some (enter c iss f (filter (not_id (option_map e_id o)) (survive c l)))).
  { intros k f l F1 F2. rewrite Live. rewrite nth_error_map.
    rewrite (nth_error_combine fs ls2 k f (filter (not_id (option_map e_id o)) (survive c l))); [reflexivity|exact F1|].
    subst ls2. now rewrite nth_error_map, F2. }
  constructor.
  - now rewrite LL, Lp.
  - intros k f l F1 F2. destruct (Nx k f F1) as (f0 & l0 & fr & G1 & G2 & G3 & G4 & G5 & G6).
    rewrite (Bck k f0 l0 G1 G2) in F2. injection F2 as <-. rewrite <- Hc. exact G6.
  - split.
    + intros i j f g op F1 F2 O1 O2. destruct (Nx i f F1) as (f0 & l0 & fr & G1 & _ & _ & _ & G5 & _). destruct (Nx j g F2) as (g0 & m0 & gr & K1 & _ & _ & _ & K5 & _).
      apply (W1 i j f0 g0 op G1 K1); congruence.
    + intros i f L0 F1 F2. destruct (Nx i f F1) as (f0 & l0 & fr & G1 & _ & _ & G4 & _). apply (W2 i f0 L0 G1). congruence.
  - rewrite Live. unfold h_step. cbn [accepted delivered squashed].
    assert (Sv : Permutation (xids (concat (live h))) (xids (filter (squash c) (concat (live h))) ++ xids (concat (map (survive c) (live h))))).
    { rewrite concat_survive, <- xids_app. apply Permutation_map. apply split_perm. }
    assert (Nd : NoDup (xids (concat (map (survive c) (live h))))).
    { rewrite concat_survive. apply NoDup_xids_filter. exact (NoDup_xids_live _ _ _ V). }
    assert (Rm : Permutation (xids (concat (map (survive c) (live h)))) (opt_list (option_map e_id o) ++ xids (concat ls2))).
    { subst ls2. rewrite <- (map_map (survive c) (filter (not_id (option_map e_id o)))), concat_filter.
      destruct A as [->|(k & f & l & x & tl & F1 & F2 & F3 & -> & _)]; [cbn; now rewrite filter_none|].
      cbn [option_map opt_list app]. rewrite xid_now. apply remove_perm; [exact Nd|]. apply in_map.
      apply in_concat_nth with (k := k) (l := survive c l); [now apply map_nth_error|]. rewrite F3. now left. }
    assert (En : Permutation (xids (concat (map (fun fl => enter c iss (fst fl) (snd fl)) (combine fs ls2)))) (map e_id (opt_list iss) ++ xids (concat ls2))).
    { destruct iss as [u|] eqn:Iu.
      - destruct (Ch u eq_refl) as (_ & _ & k0 & f0 & l0 & fr0 & G1 & _ & _ & _ & G5 & _). cbn [opt_list map app]. apply enter_perm.
        + subst ls2. now rewrite map_length.
        + exists k0, f0. auto.
        + intros i j f g F1 F2 O1 O2. exact (W1 i j f g (e_op u) F1 F2 O1 O2).
      - cbn [opt_list map app]. cbn [enter]. assert (X : map (fun fl : fu * list item => snd fl) (combine fs ls2) = ls2).
        { assert (Y : length ls2 = length fs) by (subst ls2; now rewrite map_length). clear -Y. revert Y. generalize fs. induction ls2 as [|l ls IH]; intros [|f fs0] Y; try discriminate; [reflexivity|]. cbn. f_equal. apply IH. cbn in Y. lia. }
        now rewrite X. }
    rewrite En. rewrite P. rewrite Sv, Rm. rewrite <- !app_assoc.
    apply Permutation_app_head. 
    set (sq := squashed h). set (k1 := xids (filter (squash c) (concat (live h)))). set (oo := opt_list (option_map e_id o)). set (ii := map e_id (opt_list iss)). set (zz := xids (concat ls2)).
    clear. rewrite (Permutation_app_comm zz ii). rewrite !app_assoc. do 2 apply Permutation_app_tail.
    rewrite <- app_assoc. rewrite (Permutation_app_comm sq (k1 ++ oo)). rewrite (Permutation_app_comm k1 oo). rewrite <- !app_assoc. apply Permutation_app_head. apply Permutation_app_comm.
  - unfold h_step. cbn [accepted]. destruct iss as [u|]; cbn [opt_list map]; [|now rewrite app_nil_r].
    specialize (E3 u eq_refl). apply NoDup_Add with (a := e_id u) (l := accepted h); [|split; assumption].
    rewrite <- (app_nil_r (accepted h)) at 1. apply Add_app.
  - discriminate.
Qed.
End STEP.

Lemma at_reset_inv1 f : f = fu_init (f_kind f) (f_ops f) -> inv1 f 1 [].
Proof.
  intros ->. unfold inv1, fu_init. destruct (f_kind f); cbn; auto. exists [], []. repeat split; auto; constructor.
Qed.
Theorem reach_inv fs0 now fs h : at_reset fs0 -> well_formed fs0 -> reach fs0 now fs h -> inv now fs h.
Proof.
  intros R0 W0. induction 1 as [|now fs h c iss R IH Hc E Z].
  - constructor; cbn; auto; try constructor.
    + now rewrite map_length.
    + intros k f l F1 F2. rewrite nth_error_map in F2. rewrite F1 in F2. cbn in F2. injection F2 as <-.
      apply at_reset_inv1. unfold at_reset in R0. rewrite Forall_forall in R0. apply R0. eapply nth_error_In. exact F1.
    + replace (concat (map (fun _ : fu => @nil item) fs0)) with (@nil item); [constructor|]. clear. induction fs0; cbn; auto.
  - apply step_inv; auto. apply E.
Qed.

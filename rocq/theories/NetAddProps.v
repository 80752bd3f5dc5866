(** C69, first half: the adder netlist fadd.h, for all operands. *)
From Verif Require Import Base BaseLemmas FpuModel FpuSpec NetModel NetAbs NetProofs NetAdd NetAddChk.
From Coq Require Import PArith Lia.
Local Open Scope Z_scope.
Ltac Zify.zify_post_hook ::= Z.div_mod_to_equations.
#[local] Opaque fadd prove rtl vals run to_bits is free kz ibs arun prun.


Transparent kz.
Lemma kz_known n x : forallb known (kz n x) = true.
Proof. unfold kz. apply forallb_forall. intros w Hw. apply in_map_iff in Hw as (c & <- & _). reflexivity. Qed.
#[local] Opaque kz.
(** *** NaN *)
Theorem c69_add_nan : forall a b rm, is_w 32 a -> is_w 32 b -> f_nan a \/ f_nan b ->
  rtl fadd a b rm = (NAN, 16).
Proof.
  intros a b rm Ha Hb H.
  assert (G : fst (rtl fadd a b rm) = NAN mod 2 ^ 32 /\ snd (rtl fadd a b rm) = 16 mod 32).
  { destruct H as [N|N]; apply nan_parts in N as [E F].
    - assert (P := p_nan_a).
      assert (Q : Forall2 fits ((free 23 ++ is 8 255 ++ [None]) ++ free 32 ++ free 3) (vals a b rm)).
      { apply fits_vals; [apply fits_expo; [exact Ha | exact E | exact I] | |]; apply fits_free_word. }
      assert (Nv : forall f, In f [nofrac_a] -> ~ occurs (vals a b rm) f).
      { intros f [<-|[]]. apply never_nofrac_a, F. }
      split; [eapply (rtl_value _ _ _ _ _ _ _ P) | eapply (rtl_flags _ _ _ _ _ _ _ P)];
        [reflexivity | reflexivity | exact Q | exact Nv | apply den_ABR | apply den_kz
        |reflexivity | reflexivity | exact Q | exact Nv | apply den_ABR | apply den_kz].
    - assert (P := p_nan_b).
      assert (Q : Forall2 fits (free 32 ++ (free 23 ++ is 8 255 ++ [None]) ++ free 3) (vals a b rm)).
      { apply fits_vals; [| apply fits_expo; [exact Hb | exact E | exact I] |]; apply fits_free_word. }
      assert (Nv : forall f, In f [nofrac_b] -> ~ occurs (vals a b rm) f).
      { intros f [<-|[]]. apply never_nofrac_b, F. }
      split; [eapply (rtl_value _ _ _ _ _ _ _ P) | eapply (rtl_flags _ _ _ _ _ _ _ P)];
        [reflexivity | reflexivity | exact Q | exact Nv | apply den_ABR | apply den_kz
        |reflexivity | reflexivity | exact Q | exact Nv | apply den_ABR | apply den_kz]. }
  destruct G as [G1 G2]. destruct (rtl fadd a b rm) as [x y]. cbn [fst snd] in *. subst. reflexivity.
Qed.

(** *** Infinities *)
Lemma den_sign63 a b rm x m : is_w 32 b -> is_w 32 x -> f_sign x = f_sign b -> f_mag x = m ->
  Forall2 (den (rho_of (vals a b rm))) (kz 31 m ++ [In_ false 64]) (to_bits 32 x).
Proof.
  intros Hb Hx S <-. rewrite (word_mag x Hx). apply Forall2_app; [apply den_kz|].
  constructor; [|constructor]. cbn [den]. rewrite S.
  assert (D := den_B a b rm). rewrite (word_mag b Hb) in D.
  change (ibs 32 32) with (ibs 32 31 ++ [In_ false 64]) in D.
  apply Forall2_app_inv_r in D as (l1 & l2 & D1 & D2 & E).
  assert (length l1 = 31%nat) by (rewrite (f2_length _ _ _ D1), to_bits_length; reflexivity).
  apply app_inj_tail_iff in E || idtac.
  assert (El : l2 = [In_ false 64]).
  { assert (Q : skipn 31 (ibs 32 31 ++ [In_ false 64]) = skipn 31 (l1 ++ l2)) by (rewrite E; reflexivity).
    rewrite (skip_app 31 l1 l2) in Q by congruence. rewrite skip_app in Q by reflexivity. congruence. }
  subst l2. inversion D2; subst. assumption.
Qed.
Theorem c69_add_inf : forall a b rm, is_w 32 a -> is_w 32 b ->
  (f_mag a = INF -> f_mag b < INF -> fst (rtl fadd a b rm) = a) /\
  (f_mag a < INF -> f_mag b = INF -> fst (rtl fadd a b rm) = b) /\
  (f_mag a = INF -> f_mag b = INF -> f_sign a = f_sign b -> fst (rtl fadd a b rm) = a) /\
  (f_mag a = INF -> f_mag b = INF -> f_sign a <> f_sign b -> rtl fadd a b rm = (NAN, 16)).
Proof.
  intros a b rm Ha Hb. split; [|split; [|split]].
  - intros Ma Mb. rewrite <- (Z.mod_small a (2 ^ 32)) at 2 by exact Ha.
    eapply (rtl_value _ _ _ _ _ _ _ p_inf_a); [reflexivity | reflexivity | | | apply den_ABR |].
    + apply fits_vals; [apply fits_mag; [exact Ha | exact Ma | exact I] | |]; apply fits_free_word.
    + intros f [<-|[]]. apply never_top_b, finite_expo, Mb.
    + eapply den_sign31; [reflexivity | exact Ha | exact Ha | destruct (f_sign a); reflexivity | exact Ma].
  - intros Ma Mb. rewrite <- (Z.mod_small b (2 ^ 32)) at 2 by exact Hb.
    eapply (rtl_value _ _ _ _ _ _ _ p_inf_b); [reflexivity | reflexivity | | | apply den_ABR |].
    + apply fits_vals; [| apply fits_mag; [exact Hb | exact Mb | exact I] |]; apply fits_free_word.
    + intros f [<-|[]]. apply never_top_a, finite_expo, Ma.
    + apply den_sign63; auto.
  - intros Ma Mb S. rewrite <- (Z.mod_small a (2 ^ 32)) at 2 by exact Ha.
    eapply (rtl_value _ _ _ _ _ _ _ (p_inf_same (f_sign a))); [reflexivity | destruct (f_sign a); reflexivity | | | apply den_ABR |].
    + apply fits_vals; [apply fits_mag; [exact Ha | exact Ma | reflexivity] | apply fits_mag; [exact Hb | exact Mb | symmetry; exact S] | apply fits_free_word].
    + intros f [].
    + replace a with (INF + (if f_sign a then 2 ^ 31 else 0)) at 3; [apply den_kz|]. rewrite <- Ma. symmetry.
      unfold f_mag, f_sign, is_w in *. change (2 ^ 32) with 4294967296 in *. change (2 ^ 31) with 2147483648 in *. destruct (Z.leb_spec 2147483648 a); lia.
  - intros Ma Mb S.
    assert (Sb : f_sign b = negb (f_sign a)) by (destruct (f_sign a), (f_sign b); congruence || reflexivity).
    assert (Q : Forall2 fits (infp (Some (f_sign a)) ++ infp (Some (negb (f_sign a))) ++ free 3) (vals a b rm)).
    { apply fits_vals; [apply fits_mag; [exact Ha | exact Ma | reflexivity] | apply fits_mag; [exact Hb | exact Mb | exact Sb] | apply fits_free_word]. }
    assert (Nv : forall f, In f [] -> ~ occurs (vals a b rm) f) by (intros f []).
    assert (G1 : fst (rtl fadd a b rm) = NAN mod 2 ^ 32).
    { eapply (rtl_value _ _ _ _ _ _ _ (p_inf_opp (f_sign a))); [reflexivity | reflexivity | exact Q | exact Nv | apply den_ABR | apply den_kz]. }
    assert (G2 : snd (rtl fadd a b rm) = 16 mod 32).
    { eapply (rtl_flags _ _ _ _ _ _ _ (p_inf_opp (f_sign a))); [reflexivity | reflexivity | exact Q | exact Nv | apply den_ABR | apply den_kz]. }
    destruct (rtl fadd a b rm) as [x y]. cbn [fst snd] in *. subst. reflexivity.
Qed.

(** *** Adding zero *)
Theorem c69_add_zero : forall a b rm, is_w 32 a -> is_w 32 b ->
  (f_mag b = 0 -> 0 < f_mag a < INF -> rtl fadd a b rm = (a, 0)) /\
  (f_mag a = 0 -> 0 < f_mag b < INF -> rtl fadd a b rm = (b, 0)).
Proof.
  intros a b rm Ha Hb. split; intros M R.
  - assert (Q : Forall2 fits (free 32 ++ (is 31 0 ++ [Some (f_sign b)]) ++ free 3) (vals a b rm)).
    { apply fits_vals; [| apply fits_mag; [exact Hb | exact M | reflexivity] |]; apply fits_free_word. }
    assert (Nv : forall f, In f [top_a; zero_a] -> ~ occurs (vals a b rm) f).
    { intros f [<-|[<-|[]]]; [apply never_top_a, finite_expo | apply never_zero_a]; lia. }
    assert (G1 : fst (rtl fadd a b rm) = a mod 2 ^ 32).
    { eapply (rtl_value _ _ _ _ _ _ _ (p_zero_b (f_sign b))); [reflexivity | reflexivity | exact Q | exact Nv | apply den_ABR | apply den_A]. }
    assert (G2 : snd (rtl fadd a b rm) = 0 mod 32).
    { eapply (rtl_flags _ _ _ _ _ _ _ (p_zero_b (f_sign b))); [reflexivity | reflexivity | exact Q | exact Nv | apply den_ABR | apply den_kz]. }
    rewrite Z.mod_small in G1 by exact Ha. destruct (rtl fadd a b rm) as [x y]. cbn [fst snd] in *. subst. reflexivity.
  - assert (Q : Forall2 fits ((is 31 0 ++ [Some (f_sign a)]) ++ free 32 ++ free 3) (vals a b rm)).
    { apply fits_vals; [apply fits_mag; [exact Ha | exact M | reflexivity] | |]; apply fits_free_word. }
    assert (Nv : forall f, In f [top_b; zero_b] -> ~ occurs (vals a b rm) f).
    { intros f [<-|[<-|[]]]; [apply never_top_b, finite_expo | apply never_zero_b]; lia. }
    assert (G1 : fst (rtl fadd a b rm) = b mod 2 ^ 32).
    { eapply (rtl_value _ _ _ _ _ _ _ (p_zero_a (f_sign a))); [reflexivity | reflexivity | exact Q | exact Nv | apply den_ABR | apply den_B]. }
    assert (G2 : snd (rtl fadd a b rm) = 0 mod 32).
    { eapply (rtl_flags _ _ _ _ _ _ _ (p_zero_a (f_sign a))); [reflexivity | reflexivity | exact Q | exact Nv | apply den_ABR | apply den_kz]. }
    rewrite Z.mod_small in G1 by exact Hb. destruct (rtl fadd a b rm) as [x y]. cbn [fst snd] in *. subst. reflexivity.
Qed.

(** *** The rounding modes 5, 6 and 7 round toward zero *)
Theorem c69_add_dynamic_refuted : forall a b rm, In rm [5; 6; 7] -> rtl fadd a b rm = rtl fadd a b 1.
Proof.
  intros a b rm H. apply rtl_eq; [|exact fadd37]. apply two_modes.
  cbn [In] in H. destruct H as [<-|[<-|[<-|[]]]]; apply p_dyn; cbn; tauto.
Qed.
(** 1 + 2^-23 * 3/4 is 1 + 2^-23 to nearest, 1 toward zero. *)
Example c69_add_dynamic_run :
  fst (rtl fadd 0x3f800000 0x33c00000 0) = 0x3f800001 /\ fst (rtl fadd 0x3f800000 0x33c00000 7) = 0x3f800000.
Proof. vm_compute. auto. Qed.

(** *** Cancellation *)
Definition NEG (x : Z) : Z := with_sign (negb (f_sign x)) x.
Lemma neg_w x : is_w 32 x -> is_w 32 (NEG x).
Proof.
  unfold is_w, NEG, with_sign, f_sign, f_mag. change (2 ^ 32) with 4294967296. change (2 ^ 31) with 2147483648. intros H.
  destruct (2147483648 <=? x); cbn [negb]; lia.
Qed.
Lemma neg_mag x : f_mag (NEG x) = f_mag x.
Proof. unfold NEG, with_sign, f_mag, f_sign. change (2 ^ 31) with 2147483648. destruct (2147483648 <=? x); cbn [negb]; lia. Qed.
Lemma neg_sign x : is_w 32 x -> f_sign (NEG x) = negb (f_sign x).
Proof.
  unfold is_w, NEG, with_sign. intros H. assert (0 <= f_mag x < 2 ^ 31) by (apply Z.mod_pos_bound; reflexivity).
  unfold f_sign at 1. change (2 ^ 31) with 2147483648 in *. destruct (f_sign x); cbn [negb]; destruct (Z.leb_spec 2147483648 (f_mag x + 0)); try destruct (Z.leb_spec 2147483648 (f_mag x + 2147483648)); lia || reflexivity.
Qed.
Lemma den_TIE x rm : is_w 32 x -> Forall2 (den (rho_of (vals x 0 rm))) TIE (vals x (NEG x) rm).
Proof.
  intros H. unfold TIE, vals at 2. apply Forall2_app; [apply den_A|]. apply Forall2_app; [|apply den_RM].
  rewrite (word_mag (NEG x)), neg_mag, neg_sign by (try apply neg_w; exact H).
  assert (D := den_A x 0 rm). rewrite (word_mag x H) in D.
  change (ibs 0 32) with (ibs 0 31 ++ [In_ false 32]) in D.
  apply f2_app_inv in D as [D1 D2]. replace (length (ibs 0 31)) with 31%nat in * by reflexivity.
  rewrite first_app in D1 by (rewrite to_bits_length; reflexivity).
  rewrite skip_app in D2 by (rewrite to_bits_length; reflexivity).
  apply Forall2_app; [exact D1|]. inversion D2 as [|? ? ? ? E _]; subst. cbn [den] in E.
  constructor; [|constructor]. cbn [den]. rewrite E. destruct (rho_of (vals x 0 rm) 32); reflexivity.
Qed.
Theorem c69_add_cancel : forall x rm, is_w 32 x -> 0 <= rm < 8 -> f_mag x < INF ->
  rtl fadd x (NEG x) rm = ((if rm =? 2 then 2 ^ 31 else 0), 0).
Proof.
  intros x rm Hx Hr Hm.
  assert (Nv : forall r f, In f [top_a] -> ~ occurs (vals x 0 r) f) by (intros r f [<-|[]]; apply never_top_a, finite_expo, Hm).
  assert (G : forall r, In r [0; 1; 2; 3; 4; 5] -> rtl fadd x (NEG x) r = ((if r =? 2 then 2 ^ 31 else 0), 0)).
  { intros r Hr'.
    assert (GG : fst (rtl fadd x (NEG x) r) = (if r =? 2 then 2 ^ 31 else 0) mod 2 ^ 32 /\ snd (rtl fadd x (NEG x) r) = 0 mod 32).
    { cbn [In] in Hr'. destruct Hr' as [<-|[<-|[<-|[<-|[<-|[<-|[]]]]]]].
      1,2,5,6: assert (P := p_cancel_01).
      5: assert (P := p_cancel_2). 6: assert (P := p_cancel_3).
      all: split; [eapply (rtl_value _ _ _ _ _ _ _ P) | eapply (rtl_flags _ _ _ _ _ _ _ P)];
        try reflexivity; try apply Nv; try (apply den_TIE; exact Hx); try apply den_kz;
        (apply fits_vals; [apply fits_free_word | apply fits_free_word |]);
        vm_compute; repeat constructor. }
    destruct GG as [G1 G2]. destruct (rtl fadd x (NEG x) r) as [u v]. cbn [fst snd] in *. subst. destruct (r =? 2); reflexivity. }
  assert (C : In rm [0; 1; 2; 3; 4; 5] \/ rm = 6 \/ rm = 7) by (cbn [In]; lia).
  destruct C as [C|[->| ->]]; [apply G, C | |];
    rewrite c69_add_dynamic_refuted by (cbn; tauto); apply (G 1); cbn; tauto.
Qed.

(** *** Doubling *)
Lemma den_DBL x rm : Forall2 (den (rho_of (vals x 0 rm))) DBL (vals x x rm).
Proof. unfold DBL, vals at 2. repeat apply Forall2_app; try apply den_A; apply den_RM. Qed.
Lemma fits_any {n} (l : list bool) : length l = n -> Forall2 fits (free n) l.
Proof. apply fits_free. Qed.
Lemma mag_w x : 0 <= f_mag x < 2 ^ 31.
Proof. apply Z.mod_pos_bound. reflexivity. Qed.
Lemma word_eq x y : is_w 32 x -> is_w 32 y -> f_sign x = f_sign y -> f_mag x = f_mag y -> x = y.
Proof.
  unfold is_w, f_sign, f_mag. change (2 ^ 32) with 4294967296. change (2 ^ 31) with 2147483648. intros Hx Hy S M.
  destruct (Z.leb_spec 2147483648 x), (Z.leb_spec 2147483648 y); try discriminate; lia.
Qed.
Theorem c69_add_double : forall x rm, is_w 32 x -> 0 < f_mag x ->
  (2 ^ 23 <= f_mag x < INF - 2 ^ 23 -> rtl fadd x x rm = (x + 2 ^ 23, 0)) /\
  (f_mag x < 2 ^ 23 -> fst (rtl fadd x x rm) = x + f_mag x).
Proof.
  intros x rm Hx Hp. split; intros M.
  - assert (E : 1 <= expo x <= 253).
    { unfold expo. change INF with 2139095040 in M. change (2 ^ 23) with 8388608 in *. lia. }
    assert (P : dbl_ok (expo x) = true).
    { assert (F := proj1 (forallb_forall _ _) p_double (Z.to_nat (expo x))). cbn beta in F.
      rewrite Z2Nat.id in F by lia. apply F, in_seq. lia. }
    unfold dbl_ok in P.
    assert (Q : Forall2 fits ((free 23 ++ is 8 (expo x) ++ [None]) ++ free 32 ++ free 3) (vals x 0 rm)).
    { apply fits_vals; [apply fits_expo; [exact Hx | reflexivity | exact I] | |]; apply fits_free_word. }
    assert (Nv : forall f, In f [] -> ~ occurs (vals x 0 rm) f) by (intros f []).
    assert (Mp := mag_parts x). assert (Fr := frac_range x).
    assert (W : is_w 32 (x + 2 ^ 23) /\ f_sign (x + 2 ^ 23) = f_sign x /\ f_mag (x + 2 ^ 23) = f_mag x + 2 ^ 23).
    { unfold is_w, f_sign, f_mag in *. change INF with 2139095040 in M. change (2 ^ 23) with 8388608 in *. change (2 ^ 31) with 2147483648 in *. change (2 ^ 32) with 4294967296 in *.
      destruct (Z.leb_spec 2147483648 x), (Z.leb_spec 2147483648 (x + 8388608)); repeat split; lia. }
    destruct W as (W1 & W2 & W3).
    assert (E2 : expo (x + 2 ^ 23) = expo x + 1 /\ frac (x + 2 ^ 23) = frac x).
    { unfold expo, frac. rewrite W3. change (2 ^ 23) with 8388608. lia. }
    destruct E2 as [E2 F2].
    assert (G1 : fst (rtl fadd x x rm) = (x + 2 ^ 23) mod 2 ^ 32).
    { eapply (rtl_value _ _ _ _ _ _ _ P); [reflexivity | reflexivity | exact Q | exact Nv | apply den_DBL |].
      rewrite (word_split (x + 2 ^ 23) W1), E2, F2, W2.
      assert (D := den_A x 0 rm). rewrite (word_split x Hx) in D.
      change (ibs 0 32) with (ibs 0 23 ++ ibs 23 8 ++ [In_ false 32]) in D.
      apply f2_app_inv in D as [D1 D2]. replace (length (ibs 0 23)) with 23%nat in * by reflexivity.
      rewrite first_app in D1 by (rewrite to_bits_length; reflexivity).
      rewrite skip_app in D2 by (rewrite to_bits_length; reflexivity).
      apply f2_app_inv in D2 as [_ D2]. replace (length (ibs 23 8)) with 8%nat in * by reflexivity.
      rewrite skip_app in D2 by (rewrite to_bits_length; reflexivity).
      apply Forall2_app; [exact D1|]. apply Forall2_app; [apply den_kz | exact D2]. }
    assert (G2 : snd (rtl fadd x x rm) = 0 mod 32).
    { eapply (rtl_flags _ _ _ _ _ _ _ P); [reflexivity | reflexivity | exact Q | exact Nv | apply den_DBL | apply den_kz]. }
    rewrite Z.mod_small in G1 by exact W1. destruct (rtl fadd x x rm) as [u v]. cbn [fst snd] in *. subst. reflexivity.
  - assert (E : expo x = 0 /\ frac x = f_mag x) by (unfold expo, frac; change (2 ^ 23) with 8388608 in *; lia).
    destruct E as [E F].
    assert (Q : Forall2 fits ((free 23 ++ is 8 0 ++ [None]) ++ free 32 ++ free 3) (vals x 0 rm)).
    { apply fits_vals; [apply fits_expo; [exact Hx | exact E | exact I] | |]; apply fits_free_word. }
    assert (Nv : forall f, In f [zero_a] -> ~ occurs (vals x 0 rm) f) by (intros f [<-|[]]; apply never_zero_a; lia).
    assert (W : is_w 32 (x + f_mag x) /\ f_sign (x + f_mag x) = f_sign x /\ f_mag (x + f_mag x) = 2 * f_mag x).
    { unfold is_w, f_sign, f_mag in *. change (2 ^ 23) with 8388608 in *. change (2 ^ 31) with 2147483648 in *. change (2 ^ 32) with 4294967296 in *.
      destruct (Z.leb_spec 2147483648 x), (Z.leb_spec 2147483648 (x + x mod 2147483648)); repeat split; lia. }
    destruct W as (W1 & W2 & W3). rewrite <- (Z.mod_small (x + f_mag x) (2 ^ 32)) by exact W1.
    eapply (rtl_value _ _ _ _ _ _ _ p_double_sub); [reflexivity | reflexivity | exact Q | exact Nv | apply den_DBL |].
    rewrite (word_mag _ W1), W2, W3, <- F.
    assert (D := den_A x 0 rm). rewrite (word_split x Hx) in D.
    change (ibs 0 32) with (ibs 0 23 ++ ibs 23 8 ++ [In_ false 32]) in D.
    apply f2_app_inv in D as [D1 D2]. replace (length (ibs 0 23)) with 23%nat in * by reflexivity.
    rewrite first_app in D1 by (rewrite to_bits_length; reflexivity).
    rewrite skip_app in D2 by (rewrite to_bits_length; reflexivity).
    apply f2_app_inv in D2 as [_ D2]. replace (length (ibs 23 8)) with 8%nat in * by reflexivity.
    rewrite skip_app in D2 by (rewrite to_bits_length; reflexivity).
    assert (S1 : to_bits 31 (2 * frac x) = to_bits 1 0 ++ to_bits 23 (frac x) ++ to_bits 7 0).
    { assert (Fr := frac_range x). change (2 ^ 23) with 8388608 in *.
      rewrite (to_bits_app 1 30), (to_bits_app 23 7). change (2 ^ Z.of_nat 1) with 2. change (2 ^ Z.of_nat 23) with 8388608.
      replace (2 * frac x / 2) with (frac x) by lia. replace (frac x / 8388608) with 0 by lia.
      f_equal. rewrite <- (to_bits_mod 1 (2 * frac x)). change (2 ^ Z.of_nat 1) with 2. replace ((2 * frac x) mod 2) with 0 by lia. reflexivity. }
    rewrite S1, <- !app_assoc. apply Forall2_app; [apply den_kz|]. apply Forall2_app; [exact D1|]. apply Forall2_app; [apply den_kz | exact D2].
Qed.

(** *** Two zeros *)
Theorem c69_add_zeros : forall a b rm, is_w 32 a -> is_w 32 b -> 0 <= rm < 8 -> f_mag a = 0 -> f_mag b = 0 ->
  rtl fadd a b rm = ((if Bool.eqb (f_sign a) (f_sign b) then a else if rm =? 2 then 2 ^ 31 else 0), 0).
Proof.
  intros a b rm Ha Hb Hr Ma Mb.
  assert (C : In rm [0; 1; 2; 3; 4; 5; 6; 7]) by (cbn [In]; lia).
  assert (P := p_zz (f_sign a) (f_sign b) rm C).
  assert (Q : Forall2 fits ((is 31 0 ++ [Some (f_sign a)]) ++ (is 31 0 ++ [Some (f_sign b)]) ++ is 3 rm) (vals a b rm)).
  { apply fits_vals; [apply fits_mag; [exact Ha | exact Ma | reflexivity] | apply fits_mag; [exact Hb | exact Mb | reflexivity] | apply fits_self]. }
  assert (Nv : forall f, In f [] -> ~ occurs (vals a b rm) f) by (intros f []).
  assert (Ea : (if f_sign a then 2 ^ 31 else 0) = a).
  { unfold f_mag, f_sign, is_w in *. change (2 ^ 31) with 2147483648 in *. change (2 ^ 32) with 4294967296 in *. destruct (Z.leb_spec 2147483648 a); lia. }
  rewrite Ea in P.
  set (v := if Bool.eqb (f_sign a) (f_sign b) then a else if rm =? 2 then 2 ^ 31 else 0) in *.
  assert (Wv : is_w 32 v) by (unfold v; destruct (Bool.eqb _ _); [exact Ha | destruct (rm =? 2); split; reflexivity || discriminate]).
  assert (G1 : fst (rtl fadd a b rm) = v mod 2 ^ 32).
  { eapply (rtl_value _ _ _ _ _ _ _ P); [reflexivity | | exact Q | exact Nv | apply den_ABR | apply den_kz].
    apply kz_known. }
  assert (G2 : snd (rtl fadd a b rm) = 0 mod 32).
  { eapply (rtl_flags _ _ _ _ _ _ _ P); [reflexivity | reflexivity | exact Q | exact Nv | apply den_ABR | apply den_kz]. }
  rewrite Z.mod_small in G1 by exact Wv. destruct (rtl fadd a b rm) as [x y]. cbn [fst snd] in *. subst. reflexivity.
Qed.

(** *** Changing both signs keeps the magnitude of the sum *)
Theorem c69_add_negate : forall a b rm, is_w 32 a -> is_w 32 b -> In rm [0; 1; 4] ->
  f_mag (fst (rtl fadd (NEG a) (NEG b) rm)) = f_mag (fst (rtl fadd a b rm)).
Proof.
  intros a b rm Ha Hb Hr. symmetry. apply rtl_mag_eq; [|exact fadd37].
  eapply (two_signs _ _ _ _ _ _ _ _ (p_neg (f_sign a) (f_sign b) rm Hr)); auto using neg_w, neg_sign; symmetry; apply neg_mag.
Qed.

(** *** Flags that are wrong *)
Lemma quiet_nan v : class_of v = Qnan -> f_nan v.
Proof.
  unfold class_of, f_nan. intros H. destruct (Z.ltb_spec INF (f_mag v)); [assumption|].
  repeat match type of H with context [if ?c then _ else _] => destruct c end; discriminate.
Qed.
(** IEEE 754 and the unprivileged manual, 11.2: only a signaling NaN raises the
    invalid flag (bit 4) in an addition; the netlist raises it for quiet ones. *)
Theorem c69_add_quiet_refuted : forall a b rm, is_w 32 a -> is_w 32 b ->
  class_of a = Qnan \/ class_of b = Qnan -> snd (rtl fadd a b rm) = 16.
Proof.
  intros a b rm Ha Hb Q. rewrite c69_add_nan; [reflexivity | exact Ha | exact Hb|].
  destruct Q as [Q|Q]; [left|right]; apply quiet_nan; exact Q.
Qed.
(** The underflow flag (bit 1) of a result that is exact, and so does not underflow
    (11.2, tininess with loss of accuracy): here 2^-149 + 2^-149. *)
Example c69_add_exact_underflow : rtl fadd 1 1 0 = (2, 2).
Proof. vm_compute. reflexivity. Qed.

(** *** Examples: none of the premises above is empty *)
Example c69_add_runs :
  rtl fadd 0x7f800001 0 0 = (NAN, 16) /\ rtl fadd 0x7fc00000 0x3f800000 0 = (NAN, 16) /\ rtl fadd 0x7f800000 0xc0490fdb 0 = (0x7f800000, 0) /\ rtl fadd 0x7f800000 0xff800000 0 = (NAN, 16) /\ rtl fadd 0x3f800000 0x80000000 0 = (0x3f800000, 0) /\ rtl fadd 0x3f800000 0xbf800000 2 = (0x80000000, 0) /\ rtl fadd 0x3f800000 0x3f800000 0 = (0x40000000, 0) /\ rtl fadd 0x3f800000 0x40000000 0 = (0x40400000, 0).
Proof. vm_compute. auto 20. Qed.

Print Assumptions c69_add_nan.
Print Assumptions c69_add_inf.
Print Assumptions c69_add_zero.
Print Assumptions c69_add_zeros.
Print Assumptions c69_add_cancel.
Print Assumptions c69_add_double.
Print Assumptions c69_add_negate.
Print Assumptions c69_add_dynamic_refuted.
Print Assumptions c69_add_quiet_refuted.

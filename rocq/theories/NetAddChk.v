(** C69: runs of the adder netlist on partly unknown inputs (see NetProofs.v). *)
From Verif Require Import Base BaseLemmas FpuModel FpuSpec NetModel NetAbs NetProofs NetFast NetAdd.
From Coq Require Import PArith Lia.
Local Open Scope Z_scope.
#[local] Opaque prove prun.

Lemma fadd37 : length (snd fadd) = 37%nat.
Proof. vm_compute. reflexivity. Qed.
Definition infp (s : option bool) : pat := is 31 INF ++ [s].
Definition TIE : list av := ibs 0 32 ++ (ibs 0 31 ++ [In_ true 32]) ++ ibs 64 3.
Definition DBL : list av := ibs 0 32 ++ ibs 0 32 ++ ibs 64 3.
Definition dbl_ok (e : Z) : bool :=
  prove fadd DBL ((ibs 0 23 ++ kz 8 (e + 1) ++ [In_ false 32]) ++ kz 5 0) [] [] ((free 23 ++ is 8 e ++ [None]) ++ free 32 ++ free 3).
Definition g_nan_a : goal := Goal ABR (kz 32 NAN ++ kz 5 16) [nofrac_a] (down 0 23 ++ expfrac_b) ((free 23 ++ is 8 255 ++ [None]) ++ free 32 ++ free 3).
Definition cert_nan_a := Eval vm_compute in cert_of fadd g_nan_a.
Definition g_nan_b : goal := Goal ABR (kz 32 NAN ++ kz 5 16) [nofrac_b] (down 32 23 ++ expfrac_a) (free 32 ++ (free 23 ++ is 8 255 ++ [None]) ++ free 3).
Definition cert_nan_b := Eval vm_compute in cert_of fadd g_nan_b.
Definition g_inf_a : goal := Goal ABR ((kz 31 INF ++ [In_ false 32]) ++ kz 5 0) [top_b] ([32; 64]%positive ++ expfrac_b) (infp None ++ free 32 ++ free 3).
Definition cert_inf_a := Eval vm_compute in cert_of fadd g_inf_a.
Definition g_inf_b : goal := Goal ABR ((kz 31 INF ++ [In_ false 64]) ++ kz 5 0) [top_a] ([32; 64]%positive ++ expfrac_a) (free 32 ++ infp None ++ free 3).
Definition cert_inf_b := Eval vm_compute in cert_of fadd g_inf_b.
Definition g_inf_same (s : bool) : goal := Goal ABR (kz 32 (INF + (if s then 2 ^ 31 else 0)) ++ kz 5 0) [] [] (infp (Some s) ++ infp (Some s) ++ free 3).
Definition cert_inf_same_true := Eval vm_compute in cert_of fadd (g_inf_same true).
Definition cert_inf_same_false := Eval vm_compute in cert_of fadd (g_inf_same false).
Definition g_inf_opp (s : bool) : goal := Goal ABR (kz 32 NAN ++ kz 5 16) [] [] (infp (Some s) ++ infp (Some (negb s)) ++ free 3).
Definition cert_inf_opp_true := Eval vm_compute in cert_of fadd (g_inf_opp true).
Definition cert_inf_opp_false := Eval vm_compute in cert_of fadd (g_inf_opp false).
Definition g_zero_b (s : bool) : goal := Goal ABR (ibs 0 32 ++ kz 5 0) [top_a; zero_a] expfrac_a (free 32 ++ (is 31 0 ++ [Some s]) ++ free 3).
Definition cert_zero_b_true := Eval vm_compute in cert_of fadd (g_zero_b true).
Definition cert_zero_b_false := Eval vm_compute in cert_of fadd (g_zero_b false).
Definition g_zero_a (s : bool) : goal := Goal ABR (ibs 32 32 ++ kz 5 0) [top_b; zero_b] expfrac_b ((is 31 0 ++ [Some s]) ++ free 32 ++ free 3).
Definition cert_zero_a_true := Eval vm_compute in cert_of fadd (g_zero_a true).
Definition cert_zero_a_false := Eval vm_compute in cert_of fadd (g_zero_a false).
Definition g_cancel_01 : goal := Goal TIE (kz 32 0 ++ kz 5 0) [top_a] (expfrac_a ++ [32%positive]) (free 32 ++ free 32 ++ [None; Some false; None]).
Definition cert_cancel_01 := Eval vm_compute in cert_of fadd g_cancel_01.
Definition g_cancel_3 : goal := Goal TIE (kz 32 0 ++ kz 5 0) [top_a] (expfrac_a ++ [32%positive]) (free 32 ++ free 32 ++ is 3 3).
Definition cert_cancel_3 := Eval vm_compute in cert_of fadd g_cancel_3.
Definition g_cancel_2 : goal := Goal TIE (kz 32 (2 ^ 31) ++ kz 5 0) [top_a] (expfrac_a ++ [32%positive]) (free 32 ++ free 32 ++ is 3 2).
Definition cert_cancel_2 := Eval vm_compute in cert_of fadd g_cancel_2.
Definition g_dbl (e : Z) : goal := Goal DBL ((ibs 0 23 ++ kz 8 (e + 1) ++ [In_ false 32]) ++ kz 5 0) [] [] ((free 23 ++ is 8 e ++ [None]) ++ free 32 ++ free 3).
Lemma dbl_goals : all_proved fadd (map (fun e => (g_dbl (Z.of_nat e), Some CO)) (seq 1 253)) = true.
Proof. vm_compute. reflexivity. Qed.
Lemma p_double : forallb (fun e => dbl_ok (Z.of_nat e)) (seq 1 253) = true.
Proof.
  apply forallb_forall. intros e I. unfold dbl_ok. apply (all_proved_ok _ _ dbl_goals (g_dbl (Z.of_nat e)) (Some CO)).
  exact (in_map (fun e => (g_dbl (Z.of_nat e), Some CO)) _ _ I).
Qed.
Definition g_double_sub : goal := Goal DBL ((kz 1 0 ++ ibs 0 23 ++ kz 7 0 ++ [In_ false 32]) ++ vX 5) [zero_a] (down 0 23) ((free 23 ++ is 8 0 ++ [None]) ++ free 32 ++ free 3).
Definition cert_double_sub := Eval vm_compute in cert_of fadd g_double_sub.
Definition dyn_in (r : Z) : list pv := repeat Same 64 ++ pc 3 r 1.
(** Changing both signs, rounding modes that treat the signs alike. *)
Definition neg_in (s t : bool) (r : Z) : list pv := repeat Same 31 ++ [B2 s (negb s)] ++ repeat Same 31 ++ [B2 t (negb t)] ++ pc 3 r r.
Definition bools : list bool := [true; false].
Lemma in_bools b : In b bools.
Proof. destruct b; cbn; auto. Qed.
Definition pairs_in : list (list pv * nat) :=
  map (fun r => (dyn_in r, 37%nat)) [5; 6; 7] ++ flat_map (fun r => flat_map (fun s => map (fun t => (neg_in s t r, 31%nat)) bools) bools) [0; 1; 4].
Lemma pairs_ok : all_same fadd pairs_in = true.
Proof. vm_compute. reflexivity. Qed.
Lemma p_dyn r : In r [5; 6; 7] -> forallb same_outb (firstn 37 (prun fadd (repeat Same 64 ++ pc 3 r 1))) = true.
Proof. intros H. apply (all_same_ok _ _ pairs_ok (dyn_in r) 37%nat). apply in_or_app. left. exact (in_map (fun r => (dyn_in r, 37%nat)) _ _ H). Qed.
Lemma p_neg s t r : In r [0; 1; 4] -> forallb same_outb (firstn 31 (prun fadd (repeat Same 31 ++ [B2 s (negb s)] ++ repeat Same 31 ++ [B2 t (negb t)] ++ pc 3 r r))) = true.
Proof.
  intros H. apply (all_same_ok _ _ pairs_ok (neg_in s t r) 31%nat). apply in_or_app. right. apply in_flat_map. exists r. split; [exact H|].
  apply in_flat_map. exists s. split; [apply in_bools|]. exact (in_map (fun t => (neg_in s t r, 31%nat)) _ _ (in_bools t)).
Qed.
(** Two zeros. *)
Definition g_zz (s t : bool) (r : Z) : goal :=
  Goal ABR (kz 32 (if Bool.eqb s t then (if s then 2 ^ 31 else 0) else if r =? 2 then 2 ^ 31 else 0) ++ kz 5 0) [] []
    ((is 31 0 ++ [Some s]) ++ (is 31 0 ++ [Some t]) ++ is 3 r).
Definition zz_goals : list (goal * option cert) :=
  flat_map (fun r => flat_map (fun s => map (fun t => (g_zz s t r, Some CO)) bools) bools) [0; 1; 2; 3; 4; 5; 6; 7].
Lemma zz_ok : all_proved fadd zz_goals = true.
Proof. vm_compute. reflexivity. Qed.
Lemma p_zz s t r : In r [0; 1; 2; 3; 4; 5; 6; 7] ->
  prove fadd ABR (kz 32 (if Bool.eqb s t then (if s then 2 ^ 31 else 0) else if r =? 2 then 2 ^ 31 else 0) ++ kz 5 0) [] []
    ((is 31 0 ++ [Some s]) ++ (is 31 0 ++ [Some t]) ++ is 3 r) = true.
Proof.
  intros H. apply (all_proved_ok _ _ zz_ok (g_zz s t r) (Some CO)). apply in_flat_map. exists r. split; [exact H|].
  apply in_flat_map. exists s. split; [apply in_bools|]. exact (in_map (fun t => (g_zz s t r, Some CO)) _ _ (in_bools t)).
Qed.

(** All of them at once. *)
Definition goals : list (goal * option cert) :=
  [(g_nan_a, cert_nan_a);
   (g_nan_b, cert_nan_b);
   (g_inf_a, cert_inf_a);
   (g_inf_b, cert_inf_b);
   (g_inf_same true, cert_inf_same_true);
   (g_inf_same false, cert_inf_same_false);
   (g_inf_opp true, cert_inf_opp_true);
   (g_inf_opp false, cert_inf_opp_false);
   (g_zero_b true, cert_zero_b_true);
   (g_zero_b false, cert_zero_b_false);
   (g_zero_a true, cert_zero_a_true);
   (g_zero_a false, cert_zero_a_false);
   (g_cancel_01, cert_cancel_01);
   (g_cancel_3, cert_cancel_3);
   (g_cancel_2, cert_cancel_2);
   (g_double_sub, cert_double_sub)].
Lemma goals_ok : all_proved fadd goals = true.
Proof. vm_compute. reflexivity. Qed.
Lemma p_nan_a : prove fadd ABR (kz 32 NAN ++ kz 5 16) [nofrac_a] (down 0 23 ++ expfrac_b) ((free 23 ++ is 8 255 ++ [None]) ++ free 32 ++ free 3) = true.
Proof. apply (all_proved_ok _ _ goals_ok g_nan_a cert_nan_a); left; reflexivity. Qed.
Lemma p_nan_b : prove fadd ABR (kz 32 NAN ++ kz 5 16) [nofrac_b] (down 32 23 ++ expfrac_a) (free 32 ++ (free 23 ++ is 8 255 ++ [None]) ++ free 3) = true.
Proof. apply (all_proved_ok _ _ goals_ok g_nan_b cert_nan_b); right; left; reflexivity. Qed.
Lemma p_inf_a : prove fadd ABR ((kz 31 INF ++ [In_ false 32]) ++ kz 5 0) [top_b] ([32; 64]%positive ++ expfrac_b) (infp None ++ free 32 ++ free 3) = true.
Proof. apply (all_proved_ok _ _ goals_ok g_inf_a cert_inf_a); right; right; left; reflexivity. Qed.
Lemma p_inf_b : prove fadd ABR ((kz 31 INF ++ [In_ false 64]) ++ kz 5 0) [top_a] ([32; 64]%positive ++ expfrac_a) (free 32 ++ infp None ++ free 3) = true.
Proof. apply (all_proved_ok _ _ goals_ok g_inf_b cert_inf_b); right; right; right; left; reflexivity. Qed.
Lemma p_inf_same (s : bool) : prove fadd ABR (kz 32 (INF + (if s then 2 ^ 31 else 0)) ++ kz 5 0) [] [] (infp (Some s) ++ infp (Some s) ++ free 3) = true.
Proof. destruct s; [apply (all_proved_ok _ _ goals_ok (g_inf_same true) (cert_inf_same_true)); right; right; right; right; left; reflexivity|apply (all_proved_ok _ _ goals_ok (g_inf_same false) (cert_inf_same_false)); right; right; right; right; right; left; reflexivity]. Qed.
Lemma p_inf_opp (s : bool) : prove fadd ABR (kz 32 NAN ++ kz 5 16) [] [] (infp (Some s) ++ infp (Some (negb s)) ++ free 3) = true.
Proof. destruct s; [apply (all_proved_ok _ _ goals_ok (g_inf_opp true) (cert_inf_opp_true)); right; right; right; right; right; right; left; reflexivity|apply (all_proved_ok _ _ goals_ok (g_inf_opp false) (cert_inf_opp_false)); right; right; right; right; right; right; right; left; reflexivity]. Qed.
Lemma p_zero_b (s : bool) : prove fadd ABR (ibs 0 32 ++ kz 5 0) [top_a; zero_a] expfrac_a (free 32 ++ (is 31 0 ++ [Some s]) ++ free 3) = true.
Proof. destruct s; [apply (all_proved_ok _ _ goals_ok (g_zero_b true) (cert_zero_b_true)); right; right; right; right; right; right; right; right; left; reflexivity|apply (all_proved_ok _ _ goals_ok (g_zero_b false) (cert_zero_b_false)); right; right; right; right; right; right; right; right; right; left; reflexivity]. Qed.
Lemma p_zero_a (s : bool) : prove fadd ABR (ibs 32 32 ++ kz 5 0) [top_b; zero_b] expfrac_b ((is 31 0 ++ [Some s]) ++ free 32 ++ free 3) = true.
Proof. destruct s; [apply (all_proved_ok _ _ goals_ok (g_zero_a true) (cert_zero_a_true)); right; right; right; right; right; right; right; right; right; right; left; reflexivity|apply (all_proved_ok _ _ goals_ok (g_zero_a false) (cert_zero_a_false)); right; right; right; right; right; right; right; right; right; right; right; left; reflexivity]. Qed.
Lemma p_cancel_01 : prove fadd TIE (kz 32 0 ++ kz 5 0) [top_a] (expfrac_a ++ [32%positive]) (free 32 ++ free 32 ++ [None; Some false; None]) = true.
Proof. apply (all_proved_ok _ _ goals_ok g_cancel_01 cert_cancel_01); right; right; right; right; right; right; right; right; right; right; right; right; left; reflexivity. Qed.
Lemma p_cancel_3 : prove fadd TIE (kz 32 0 ++ kz 5 0) [top_a] (expfrac_a ++ [32%positive]) (free 32 ++ free 32 ++ is 3 3) = true.
Proof. apply (all_proved_ok _ _ goals_ok g_cancel_3 cert_cancel_3); right; right; right; right; right; right; right; right; right; right; right; right; right; left; reflexivity. Qed.
Lemma p_cancel_2 : prove fadd TIE (kz 32 (2 ^ 31) ++ kz 5 0) [top_a] (expfrac_a ++ [32%positive]) (free 32 ++ free 32 ++ is 3 2) = true.
Proof. apply (all_proved_ok _ _ goals_ok g_cancel_2 cert_cancel_2); right; right; right; right; right; right; right; right; right; right; right; right; right; right; left; reflexivity. Qed.
Lemma p_double_sub : prove fadd DBL ((kz 1 0 ++ ibs 0 23 ++ kz 7 0 ++ [In_ false 32]) ++ vX 5) [zero_a] (down 0 23) ((free 23 ++ is 8 0 ++ [None]) ++ free 32 ++ free 3) = true.
Proof. apply (all_proved_ok _ _ goals_ok g_double_sub cert_double_sub); right; right; right; right; right; right; right; right; right; right; right; right; right; right; right; left; reflexivity. Qed.

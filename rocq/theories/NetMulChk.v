(** C69: runs of the multiplier netlist on partly unknown inputs (see NetProofs.v). *)
From Verif Require Import Base BaseLemmas FpuModel FpuSpec NetModel NetAbs NetProofs NetFast NetMul.
From Coq Require Import PArith Lia.
Local Open Scope Z_scope.
#[local] Opaque prove prun.

Lemma fmul37 : length (snd fmul) = 37%nat.
Proof. vm_compute. reflexivity. Qed.
Definition infp (s : option bool) : pat := is 31 INF ++ [s].
Definition zerop (s : option bool) : pat := is 31 0 ++ [s].
Definition onep : pat := is 32 0x3f800000.
(** The sign of the product, the sign of b being [t]. *)
Definition sgn (t : bool) : av := In_ t 32.
Definition sgn_b (s : bool) : av := In_ s 64.
Definition g_nan_a : goal := Goal ABR (kz 32 NAN ++ vX 5) [nofrac_a] (down 0 23 ++ expfrac_b) ((free 23 ++ is 8 255 ++ [None]) ++ free 32 ++ free 3).
Definition cert_nan_a := Eval vm_compute in cert_of fmul g_nan_a.
Definition g_nan_b : goal := Goal ABR (kz 32 NAN ++ vX 5) [nofrac_b] (down 32 23 ++ expfrac_a) (free 32 ++ (free 23 ++ is 8 255 ++ [None]) ++ free 3).
Definition cert_nan_b := Eval vm_compute in cert_of fmul g_nan_b.
Definition g_inf_zero : goal := Goal ABR (kz 32 NAN ++ kz 5 16) [] [] (infp None ++ zerop None ++ free 3).
Definition cert_inf_zero := Eval vm_compute in cert_of fmul g_inf_zero.
Definition g_zero_inf : goal := Goal ABR (kz 32 NAN ++ kz 5 16) [] [] (zerop None ++ infp None ++ free 3).
Definition cert_zero_inf := Eval vm_compute in cert_of fmul g_zero_inf.
Definition g_inf_inf (t : bool) : goal := Goal ABR ((kz 31 INF ++ [sgn t]) ++ vX 5) [] [32%positive] (infp None ++ infp (Some t) ++ free 3).
Definition cert_inf_inf_true := Eval vm_compute in cert_of fmul (g_inf_inf true).
Definition cert_inf_inf_false := Eval vm_compute in cert_of fmul (g_inf_inf false).
Definition g_inf_a (t : bool) : goal := Goal ABR ((kz 31 INF ++ [sgn t]) ++ vX 5) [zero_b; top_b] (32%positive :: expfrac_b) (infp None ++ (free 31 ++ [Some t]) ++ free 3).
Definition cert_inf_a_true := Eval vm_compute in cert_of fmul (g_inf_a true).
Definition cert_inf_a_false := Eval vm_compute in cert_of fmul (g_inf_a false).
Definition g_inf_b (s : bool) : goal := Goal ABR ((kz 31 INF ++ [sgn_b s]) ++ vX 5) [zero_a; top_a] (64%positive :: expfrac_a) ((free 31 ++ [Some s]) ++ infp None ++ free 3).
Definition cert_inf_b_true := Eval vm_compute in cert_of fmul (g_inf_b true).
Definition cert_inf_b_false := Eval vm_compute in cert_of fmul (g_inf_b false).
Definition g_zero_a (t : bool) : goal := Goal ABR ((kz 31 0 ++ [sgn t]) ++ vX 5) [top_b] (32%positive :: expfrac_b) (zerop None ++ (free 31 ++ [Some t]) ++ free 3).
Definition cert_zero_a_true := Eval vm_compute in cert_of fmul (g_zero_a true).
Definition cert_zero_a_false := Eval vm_compute in cert_of fmul (g_zero_a false).
Definition g_zero_b (s : bool) : goal := Goal ABR ((kz 31 0 ++ [sgn_b s]) ++ vX 5) [top_a] (64%positive :: expfrac_a) ((free 31 ++ [Some s]) ++ zerop None ++ free 3).
Definition cert_zero_b_true := Eval vm_compute in cert_of fmul (g_zero_b true).
Definition cert_zero_b_false := Eval vm_compute in cert_of fmul (g_zero_b false).
(** One exponent bit of each operand is known to be zero. *)
Definition hole (i : nat) (s : option bool) : pat := upd i (Some false) (free 31) ++ [s].
Definition sign_ok (i j : nat) (t : bool) : bool :=
  prove fmul ABR ((vX 31 ++ [sgn t]) ++ vX 5) [] [32%positive] (hole i None ++ hole j (Some t) ++ free 3).
Definition g_sign (i j : nat) (t : bool) : goal := Goal ABR ((vX 31 ++ [sgn t]) ++ vX 5) [] [32%positive] (hole i None ++ hole j (Some t) ++ free 3).
Definition bools : list bool := [true; false].
Lemma in_bools b : In b bools.
Proof. destruct b; cbn; auto. Qed.
Definition sign_goals : list (goal * option cert) :=
  flat_map (fun i => flat_map (fun j => map (fun t => (g_sign i j t, Some (CS CO CO))) bools) (seq 23 8)) (seq 23 8).
Lemma sign_goals_ok : all_proved fmul sign_goals = true.
Proof. vm_compute. reflexivity. Qed.
Lemma p_sign1 i j t : In i (seq 23 8) -> In j (seq 23 8) -> sign_ok i j t = true.
Proof.
  intros I J. unfold sign_ok. apply (all_proved_ok _ _ sign_goals_ok (g_sign i j t) (Some (CS CO CO))). apply in_flat_map. exists i. split; [exact I|].
  apply in_flat_map. exists j. split; [exact J|]. exact (in_map (fun t => (g_sign i j t, Some (CS CO CO))) _ _ (in_bools t)).
Qed.
Lemma p_sign : forallb (fun i => forallb (fun j => if sign_ok i j true then sign_ok i j false else false) (seq 23 8)) (seq 23 8) = true.
Proof. apply forallb_forall. intros i I. apply forallb_forall. intros j J. rewrite (p_sign1 i j true I J). exact (p_sign1 i j false I J). Qed.
(** Magnitudes do not depend on the signs, for modes that treat the signs alike. *)
Definition mag_in (s t s' t' : bool) (r : Z) : list pv := repeat Same 31 ++ [B2 s s'] ++ repeat Same 31 ++ [B2 t t'] ++ pc 3 r r.
Definition mode_in (r : Z) : list pv := repeat Same 64 ++ pc 3 r 7.
Definition pairs_in : list (list pv * nat) :=
  flat_map (fun r => flat_map (fun s => flat_map (fun t => flat_map (fun s' => map (fun t' => (mag_in s t s' t' r, 31%nat)) bools) bools) bools) bools) [0; 1; 4; 7]
  ++ map (fun r => (mode_in r, 37%nat)) [5; 6; 7].
Lemma pairs_ok : all_same fmul pairs_in = true.
Proof. vm_compute. reflexivity. Qed.
Lemma p_mag s t s' t' r : In r [0; 1; 4; 7] ->
  forallb same_outb (firstn 31 (prun fmul (repeat Same 31 ++ [B2 s s'] ++ repeat Same 31 ++ [B2 t t'] ++ pc 3 r r))) = true.
Proof.
  intros H. apply (all_same_ok _ _ pairs_ok (mag_in s t s' t' r) 31%nat). apply in_or_app. left. apply in_flat_map. exists r. split; [exact H|].
  apply in_flat_map. exists s. split; [apply in_bools|]. apply in_flat_map. exists t. split; [apply in_bools|]. apply in_flat_map. exists s'. split; [apply in_bools|].
  exact (in_map (fun t' => (mag_in s t s' t' r, 31%nat)) _ _ (in_bools t')).
Qed.
Lemma p_modes r : In r [5; 6; 7] -> forallb same_outb (firstn 37 (prun fmul (repeat Same 64 ++ pc 3 r 7))) = true.
Proof. intros H. apply (all_same_ok _ _ pairs_ok (mode_in r) 37%nat). apply in_or_app. right. exact (in_map (fun r => (mode_in r, 37%nat)) _ _ H). Qed.
(** Multiplying by one. *)
Definition modes : list pat := [[None; None; Some true]; [None; Some false; Some false]; [None; Some true; Some false]].
Definition g_one_b (s : bool) (m : pat) : goal := Goal ABR (ibs 0 32 ++ vX 5) [top_a] expfrac_a ((free 31 ++ [Some s]) ++ onep ++ m).
Definition g_one_a (t : bool) (m : pat) : goal := Goal ABR (ibs 32 32 ++ vX 5) [top_b] expfrac_b (onep ++ (free 31 ++ [Some t]) ++ m).
(** the same splits serve both signs *)
Definition certs_b : list (pat * option cert) := Eval vm_compute in map (fun m => (m, cert_of fmul (g_one_b true m))) modes.
Definition certs_a : list (pat * option cert) := Eval vm_compute in map (fun m => (m, cert_of fmul (g_one_a true m))) modes.
Definition one_goals : list (goal * option cert) :=
  flat_map (fun s => map (fun mc => (g_one_b s (fst mc), snd mc)) certs_b) bools ++ flat_map (fun t => map (fun mc => (g_one_a t (fst mc), snd mc)) certs_a) bools.
Lemma one_goals_ok : all_proved fmul one_goals = true.
Proof. vm_compute. reflexivity. Qed.
Lemma p_one_b s : forallb (fun m => prove fmul ABR (ibs 0 32 ++ vX 5) [top_a] expfrac_a ((free 31 ++ [Some s]) ++ onep ++ m)) modes = true.
Proof.
  apply forallb_forall. intros m I. change modes with (map fst certs_b) in I. apply in_map_iff in I. destruct I as ([m' c] & E & I). cbn in E. subst m'.
  apply (all_proved_ok _ _ one_goals_ok (g_one_b s m) c). apply in_or_app. left. apply in_flat_map. exists s. split; [apply in_bools|].
  exact (in_map (fun mc => (g_one_b s (fst mc), snd mc)) _ _ I).
Qed.
Lemma p_one_a t : forallb (fun m => prove fmul ABR (ibs 32 32 ++ vX 5) [top_b] expfrac_b (onep ++ (free 31 ++ [Some t]) ++ m)) modes = true.
Proof.
  apply forallb_forall. intros m I. change modes with (map fst certs_a) in I. apply in_map_iff in I. destruct I as ([m' c] & E & I). cbn in E. subst m'.
  apply (all_proved_ok _ _ one_goals_ok (g_one_a t m) c). apply in_or_app. right. apply in_flat_map. exists t. split; [apply in_bools|].
  exact (in_map (fun mc => (g_one_a t (fst mc), snd mc)) _ _ I).
Qed.

(** All of them at once. *)
Definition goals : list (goal * option cert) :=
  [(g_nan_a, cert_nan_a);
   (g_nan_b, cert_nan_b);
   (g_inf_zero, cert_inf_zero);
   (g_zero_inf, cert_zero_inf);
   (g_inf_inf true, cert_inf_inf_true);
   (g_inf_inf false, cert_inf_inf_false);
   (g_inf_a true, cert_inf_a_true);
   (g_inf_a false, cert_inf_a_false);
   (g_inf_b true, cert_inf_b_true);
   (g_inf_b false, cert_inf_b_false);
   (g_zero_a true, cert_zero_a_true);
   (g_zero_a false, cert_zero_a_false);
   (g_zero_b true, cert_zero_b_true);
   (g_zero_b false, cert_zero_b_false)].
Lemma goals_ok : all_proved fmul goals = true.
Proof. vm_compute. reflexivity. Qed.
Lemma p_nan_a : prove fmul ABR (kz 32 NAN ++ vX 5) [nofrac_a] (down 0 23 ++ expfrac_b) ((free 23 ++ is 8 255 ++ [None]) ++ free 32 ++ free 3) = true.
Proof. apply (all_proved_ok _ _ goals_ok g_nan_a cert_nan_a); left; reflexivity. Qed.
Lemma p_nan_b : prove fmul ABR (kz 32 NAN ++ vX 5) [nofrac_b] (down 32 23 ++ expfrac_a) (free 32 ++ (free 23 ++ is 8 255 ++ [None]) ++ free 3) = true.
Proof. apply (all_proved_ok _ _ goals_ok g_nan_b cert_nan_b); right; left; reflexivity. Qed.
Lemma p_inf_zero : prove fmul ABR (kz 32 NAN ++ kz 5 16) [] [] (infp None ++ zerop None ++ free 3) = true.
Proof. apply (all_proved_ok _ _ goals_ok g_inf_zero cert_inf_zero); right; right; left; reflexivity. Qed.
Lemma p_zero_inf : prove fmul ABR (kz 32 NAN ++ kz 5 16) [] [] (zerop None ++ infp None ++ free 3) = true.
Proof. apply (all_proved_ok _ _ goals_ok g_zero_inf cert_zero_inf); right; right; right; left; reflexivity. Qed.
Lemma p_inf_inf (t : bool) : prove fmul ABR ((kz 31 INF ++ [sgn t]) ++ vX 5) [] [32%positive] (infp None ++ infp (Some t) ++ free 3) = true.
Proof. destruct t; [apply (all_proved_ok _ _ goals_ok (g_inf_inf true) (cert_inf_inf_true)); right; right; right; right; left; reflexivity|apply (all_proved_ok _ _ goals_ok (g_inf_inf false) (cert_inf_inf_false)); right; right; right; right; right; left; reflexivity]. Qed.
Lemma p_inf_a (t : bool) : prove fmul ABR ((kz 31 INF ++ [sgn t]) ++ vX 5) [zero_b; top_b] (32%positive :: expfrac_b) (infp None ++ (free 31 ++ [Some t]) ++ free 3) = true.
Proof. destruct t; [apply (all_proved_ok _ _ goals_ok (g_inf_a true) (cert_inf_a_true)); right; right; right; right; right; right; left; reflexivity|apply (all_proved_ok _ _ goals_ok (g_inf_a false) (cert_inf_a_false)); right; right; right; right; right; right; right; left; reflexivity]. Qed.
Lemma p_inf_b (s : bool) : prove fmul ABR ((kz 31 INF ++ [sgn_b s]) ++ vX 5) [zero_a; top_a] (64%positive :: expfrac_a) ((free 31 ++ [Some s]) ++ infp None ++ free 3) = true.
Proof. destruct s; [apply (all_proved_ok _ _ goals_ok (g_inf_b true) (cert_inf_b_true)); right; right; right; right; right; right; right; right; left; reflexivity|apply (all_proved_ok _ _ goals_ok (g_inf_b false) (cert_inf_b_false)); right; right; right; right; right; right; right; right; right; left; reflexivity]. Qed.
Lemma p_zero_a (t : bool) : prove fmul ABR ((kz 31 0 ++ [sgn t]) ++ vX 5) [top_b] (32%positive :: expfrac_b) (zerop None ++ (free 31 ++ [Some t]) ++ free 3) = true.
Proof. destruct t; [apply (all_proved_ok _ _ goals_ok (g_zero_a true) (cert_zero_a_true)); right; right; right; right; right; right; right; right; right; right; left; reflexivity|apply (all_proved_ok _ _ goals_ok (g_zero_a false) (cert_zero_a_false)); right; right; right; right; right; right; right; right; right; right; right; left; reflexivity]. Qed.
Lemma p_zero_b (s : bool) : prove fmul ABR ((kz 31 0 ++ [sgn_b s]) ++ vX 5) [top_a] (64%positive :: expfrac_a) ((free 31 ++ [Some s]) ++ zerop None ++ free 3) = true.
Proof. destruct s; [apply (all_proved_ok _ _ goals_ok (g_zero_b true) (cert_zero_b_true)); right; right; right; right; right; right; right; right; right; right; right; right; left; reflexivity|apply (all_proved_ok _ _ goals_ok (g_zero_b false) (cert_zero_b_false)); right; right; right; right; right; right; right; right; right; right; right; right; right; left; reflexivity]. Qed.

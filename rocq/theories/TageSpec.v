(** Specification vocabulary for C64. *)
From Verif Require Import Base TageModel.
Local Open Scope Z_scope.

(** What happened so far, newest first: the answer given and the training done in
    a cycle. *)
Definition thist : Type := list (option meta * option train).
Definition answers (h : thist) : list meta := flat_map (fun c => match fst c with Some a => [a] | None => [] end) h.
Definition trainings (h : thist) : list train := flat_map (fun c => match snd c with Some u => [u] | None => [] end) h.

Definition no_sc_loop (m : meta) : Prop :=
  m_scu m = false /\ m_lu m = false /\ m_lidx m = 0 /\ m_ltag m = 0.
Definition zero_meta (m : meta) : Prop :=
  m_alt m = false /\ m_pcpn m = 0%nat /\ (forall i, m_idx m i = 0) /\ (forall i, m_tag m i = 0) /\ no_sc_loop m.
(** A training brings back the fields of an answer (the direction acted upon may
    differ); those of the corrector and the loop predictor may be lost on the way.
    An instruction for which no prediction was made brings zeros. *)
Definition brings_back (h : thist) (m : meta) : Prop :=
  zero_meta m \/
  exists a, In a (answers h) /\ m_alt m = m_alt a /\ m_pcpn m = m_pcpn a /\
    (forall i, m_idx m i = m_idx a i) /\ (forall i, m_tag m i = m_tag a i) /\
    (no_sc_loop m \/ (m_scu m = m_scu a /\ m_lu m = m_lu a /\ m_lidx m = m_lidx a /\ m_ltag m = m_ltag a)).

Inductive treach : thist -> tg -> Prop :=
| tr_init : treach [] tg0
| tr_step : forall h s r u s' a, treach h s ->
    (forall v, u = Some v -> brings_back h (tr_meta v)) ->
    tcycle s r u = (s', a) -> treach ((a, u) :: h) s'.

(** Every cell within its declared width *)
Definition rng (n v : Z) : Prop := 0 <= v <= n.
Record in_range (s : tg) : Prop := IR {
  ir_base : forall x, rng 3 (t_base s x);
  ir_tag : forall i x, rng 255 (t_tag s i x);
  ir_cnt : forall i x, rng 7 (t_cnt s i x);
  ir_use : forall i x, rng 3 (t_use s i x);
  ir_sc : forall x, rng 3 (t_sc s x);
  ir_scl : forall t x, rng 63 (t_scl s t x);
  ir_ua : rng 15 (t_ua s);
  ir_theta : 6 <= t_theta s <= 64;
  ir_rst : 0 <= t_rst s < 2 ^ 32;
  ir_lcnt : forall x, rng 4095 (le_cnt (t_loop s x));
  ir_llim : forall x, rng 4095 (le_lim (t_loop s x));
  ir_lconf : forall x, rng 7 (le_conf (t_loop s x));
  ir_ltag : forall x, rng 4095 (le_tag (t_loop s x)) }.

(** A counter of maximum [n] moves one step towards the outcome. *)
Definition moves (n : Z) (up : bool) (a b : Z) : Prop :=
  b = if up then Z.min n (a + 1) else Z.max 0 (a - 1).

(** Training [u] cannot touch the entries of the branch at [pc] answered with
    [own]. *)
Definition apart (own : meta) (pc : Z) (u : train) : Prop :=
  (forall i, (i < 4)%nat -> m_idx (tr_meta u) i mod 64 <> m_idx own i) /\
  (tr_pc u / 4) mod 64 <> (pc / 4) mod 64.

(** What is passed from prediction to training keeps at least these fields. *)
Definition keeps (w : meta -> meta) : Prop := forall m,
  m_pred (w m) = m_pred m /\ m_alt (w m) = m_alt m /\ m_pcpn (w m) = m_pcpn m /\
  (forall i, m_idx (w m) i = m_idx m i) /\ (forall i, m_tag (w m) i = m_tag m i).

(** A branch with unchanged history that always goes the same way, predicted and
    trained [n] times, among trainings of other entries. *)
Inductive lessons (r : preq) (dir : bool) (w : meta -> meta) : nat -> tg -> tg -> Prop :=
| ls_none : forall s, lessons r dir w 0 s s
| ls_own : forall n s s', lessons r dir w n s s' ->
    lessons r dir w (S n) s (update s' (Train (rq_pc r) dir (w (predict s' r))))
| ls_other : forall n s s' u, lessons r dir w n s s' -> apart (predict s' r) (rq_pc r) u ->
    lessons r dir w n s (update s' u).

(** A loop branch: taken [n] times, then not taken; [k] times over. *)
Definition rounds (n k : nat) : list bool := concat (repeat (repeat true n ++ [false]) k).
Definition trained_loop (e : lentry) (tag : Z) (ds : list bool) : lentry :=
  fold_left (fun e b => loop_step (loop_enter e tag) b) ds e.

(** Specification side of C11/C44: the operations in flight in the units of
    one port. *)
From Verif Require Import Base ExuModel.
Local Open Scope nat_scope.

(** An operation in flight: as issued, when, and the branches resolved since. *)
Record item := Item { x_u : einst; x_t : nat; x_res : list Z }.
Definition xid (x : item) : nat := e_id (x_u x).
Definition x_mask (x : item) : Z := fold_left Z.ldiff (x_res x) (e_mask (x_u x)).
(** What is delivered for it: the issued operation, resolved branches removed. *)
Definition now_inst (x : item) : einst := with_mask (x_u x) (x_mask x).
Definition resolve (m : Z) (x : item) : item := Item (x_u x) (x_t x) (x_res x ++ [m]).
(** The cycle in which its result is first on the bypass network. *)
Definition due_at (k : kind) (x : item) : nat :=
  match k with
  | KSingle => x_t x + 1
  | KFixed L => x_t x + L
  | KIter lat => x_t x + 1 + lat (e_fn (x_u x))
  end.
Definition due (k : kind) (now : nat) (x : item) : bool := due_at k x <=? now.

Record hist := Hist {
  live : list (list item);       (* per unit, oldest first *)
  accepted : list nat; delivered : list nat; squashed : list nat
}.
Definition xids (l : list item) : list nat := map xid l.

(** Squashed this cycle: everything on a flush, the dependents of a
    mispredicted branch otherwise. *)
Definition squash (c : ctl) (x : item) : bool :=
  c_flush c || (c_mispred c && negb (Z.land (x_mask x) (c_brmask c) =? 0)%Z).
Definition survive (c : ctl) (l : list item) : list item := map (resolve (c_clear c)) (filter (fun x => negb (squash c x)) l).
Definition not_id (o : option nat) (x : item) : bool := match o with Some n => negb (xid x =? n) | None => true end.
Definition enter (c : ctl) (iss : option einst) (f : fu) (l : list item) : list item :=
  match iss with
  | Some u => if f_ops f (e_op u) then l ++ [Item u (c_now c) [c_clear c]] else l
  | None => l end.
Definition opt_list {A} (o : option A) : list A := match o with Some a => [a] | None => [] end.
(** One cycle given the delivered operation. *)
Definition h_step (c : ctl) (iss : option einst) (out : option nat) (fs : list fu) (h : hist) : hist :=
  Hist (map (fun fl => enter c iss (fst fl) (filter (not_id out) (survive c (snd fl)))) (combine fs (live h)))
       (accepted h ++ map e_id (opt_list iss))
       (delivered h ++ opt_list out)
       (squashed h ++ xids (filter (squash c) (concat (live h)))).

(** The units of a port: operations are served by one unit, and a pipelined
    unit comes first (it must win the port whenever it completes). *)
Definition well_formed (fs : list fu) : Prop :=
  (forall i j f g op, nth_error fs i = Some f -> nth_error fs j = Some g -> f_ops f op = true -> f_ops g op = true -> i = j) /\
  (forall i f L, nth_error fs i = Some f -> f_kind f = KFixed L -> i = 0 /\ 1 <= L).

(** The issue stage respects the ready mask, issues nothing in a flush or
    mispredict cycle, and each operation once. *)
Record env_ok (c : ctl) (iss : option einst) (fs : list fu) (h : hist) : Prop := EnvOk {
  env_mask : (0 <= c_brmask c)%Z;
  env_ready : forall u, iss = Some u -> fu_ready c (fst (exec c fs)) (e_op u) = true;
  env_quiet : iss <> None -> c_flush c = false /\ c_mispred c = false;
  env_fresh : forall u, iss = Some u -> ~ In (e_id u) (accepted h)
}.
(** No multi-cycle unit is running an operation without unresolved older
    branches when the pipeline is flushed. *)
Definition no_zombie (c : ctl) (fs : list fu) (h : hist) : Prop :=
  c_flush c = true -> forall k f l x, nth_error fs k = Some f -> nth_error (live h) k = Some l -> In x l ->
    f_kind f <> KSingle -> x_t x + 1 < c_now c -> Z.land (x_mask x) 65535 <> 0%Z.

Definition at_reset (fs : list fu) : Prop := Forall (fun f => f = fu_init (f_kind f) (f_ops f)) fs.

(** Runs from reset; the simulated time advances by one per cycle. *)
Inductive reach (fs0 : list fu) : nat -> list fu -> hist -> Prop :=
| reach_init : reach fs0 1 fs0 (Hist (map (fun _ => []) fs0) [] [] [])
| reach_step now fs h c iss : reach fs0 now fs h -> c_now c = now -> env_ok c iss fs h -> no_zombie c fs h ->
    reach fs0 (S now) (port_step c iss fs)
      (h_step c iss (option_map e_id (winner c fs)) fs h).
(** The same without the restriction on flushes. *)
Inductive reach_any (fs0 : list fu) : nat -> list fu -> hist -> Prop :=
| any_init : reach_any fs0 1 fs0 (Hist (map (fun _ => []) fs0) [] [] [])
| any_step now fs h c iss : reach_any fs0 now fs h -> c_now c = now -> env_ok c iss fs h ->
    reach_any fs0 (S now) (port_step c iss fs)
      (h_step c iss (option_map e_id (winner c fs)) fs h).

(** The operations a unit holds.  A running iterative operation also keeps
    its input slot. *)
Definition held (f : fu) : list einst :=
  match f_unit f with
  | UFixed p => map fst p ++ opt_list (f_slot f)
  | UIter (Some (u, _)) => [u]
  | _ => opt_list (f_slot f)
  end.

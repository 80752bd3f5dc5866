(** The load/store unit as the rest of the machine sees it. *)
From Verif Require Import Base MemModel MemSpec LsuModel.
Local Open Scope nat_scope.

(** *** The data cache's view of stores
    It sees requests and answers them by index.  A store takes effect when it is
    answered with a hit; any other answer means "not done, ask again". *)
Definition pending := nat -> option dsreq.
Definition answer (p : pending * list dsreq) (r : dsresp) : pending * list dsreq :=
  match fst p (ds_idx r) with
  | None => p
  | Some q => (fupd (fst p) (ds_idx r) None, match ds_rep r with RHit => snd p ++ [q] | _ => snd p end)
  end.
Definition ask (p : pending) (q : dsreq) : pending := fupd p (q_sidx q) (Some q).
(** Its memory: words, written under a byte strobe. *)
Definition perform (W : Z -> Z) (q : dsreq) : Z -> Z :=
  (fun i => if i =? q_saddr q / 4 then apply_strobe (W i) (q_sdata q) (q_strb q) else W i)%Z.

(** *** The program's view: the committed stores, oldest first *)
Record hst := HS { h_pa : Z; h_f3 : Z; h_data : Z; h_mmio : bool; h_sup : bool }.
(** A store to ordinary memory that takes effect (not a failed SC, not trapping). *)
Definition plain (h : hst) : bool := negb (h_sup h) && negb (h_mmio h).
Definition pst_of (h : hst) : pstore := mkps (h_pa h) (h_f3 h) (h_data h).
Definition h_wf (h : hst) : Prop := store_f3 (h_f3 h) /\ is_w 32 (h_pa h) /\ aligned (h_pa h) (h_f3 h).
(** Memory after stores given oldest first. *)
Definition run_stores (l : list hst) (m : bmem) : bmem := fold_left (fun m h => do_store m (pst_of h)) l m.
(** Members of a set of positions, in program order. *)
Definition in_order (acc : list nat) (n : nat) : list nat := filter (fun p => existsb (Nat.eqb p) acc) (seq 0 n).

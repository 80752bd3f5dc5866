(** Which instruction streams the decoder may see. *)
From Verif Require Import Base IsaSpec FrontModel FrontSpec PreIduModel SupModel.
From Verif Require PreIduSpec.
Local Open Scope Z_scope.

(** [n] may follow an instruction as far as its encoding alone decides. *)
Definition may_follow (inst pc n : Z) : Prop :=
  match steering inst pc with
  | SNone => n = (pc + 4) mod M32
  | SJump t => n = t
  | SBranch t => n = t \/ n = (pc + 4) mod M32
  | SIndirect => True
  end.
(** Where the stored prediction for slot [i] of block [f] says fetch continued. *)
Definition predicted_next (f : fetch) (i : nat) : Z :=
  if fs_dir (f_slot f i) then f_next f else (fs_pc (f_slot f i) + 4) mod M32.
(** A stream of slots from address [a]; [z] is where it goes on.  Nothing is said about the
    successor of an instruction at an address that is not a multiple of 4. *)
Fixpoint path (a : Z) (l : list (fetch * nat)) (z : Z) : Prop :=
  match l with
  | [] => a = z
  | (f, i) :: l => fs_pc (f_slot f i) = a /\
      exists n, (a mod 4 = 0 -> n = predicted_next f i /\ may_follow (fs_inst (f_slot f i)) a n) /\ path n l z
  end.

(** The blocks delivered since the last redirection, and where that went. *)
Fixpoint since (t : list ev) (acc : list bentry) : list bentry :=
  match t with [] => acc | EvGroup b :: t => since t (acc ++ [b]) | _ :: t => since t [] end.
Fixpoint entry (t : list ev) (a : Z) : Z :=
  match t with [] => a | EvGroup _ :: t => entry t a | EvReset :: t => entry t 0 | EvRedirect b :: t => entry t b end.

(** The slots of a block the back end is to execute: the valid ones up to the first predicted taken. *)
Fixpoint wanted (b : bentry) (l : list nat) : list nat :=
  match l with [] => [] | i :: l => if be_valid b i then i :: (if be_dir b i then [] else wanted b l) else wanted b l end.
Definition slots_of (b : bentry) : list (fetch * nat) := map (fun i => (back_in (Some b), i)) (wanted b [0; 1; 2; 3]%nat).

(** An instruction in the queue is slot [i] of block [f]. *)
Definition is_slot (e : ibe) (p : fetch * nat) : Prop :=
  let x := f_slot (fst p) (snd p) in e_off e = snd p /\ e_inst e = fs_inst x /\ e_pc e = fs_pc x /\ e_fault e = fs_fault x.

(** Executions. *)
Record sghost := SGhost { w_out : list Z; w_trace : list ev; w_pre : PreIduSpec.ghost }.
(** The instruction cache answers with the words up to the end of the line (C52). *)
Definition line_group (g : igroup) : Prop := 0 <= ig_pc g < M32 /\ forall i, (i < 4)%nat -> ig_valid g i = (ig_pc g mod 64 / 4 + Z.of_nat i <? 16).
Inductive sreach (F : igroup -> Prop) (G : Z -> pred -> Prop) : sup -> sghost -> Prop :=
| sr_init o : sreach F G (sup_init o) (SGhost [] [] (PreIduSpec.Ghost [] [] []))
| sr_step s w n o' s' o m :
    sreach F G s w -> fenv F G (u_front s) (w_out w) (fc s n) o' -> sup_step s n = Some (s', o) ->
    PreIduSpec.env_ok (w_pre w) (u_pre s) (pin s n (offered s o)) m ->
    sreach F G s' (SGhost o' (w_trace w ++ event (fc s n) o) (PreIduSpec.g_step (w_pre w) (u_pre s) (pin s n (offered s o)) m)).
(** Slots handed over but not yet taken by the queue. *)
Definition waiting (s : sup) : list (fetch * nat) := if u_stall s then map (fun i => (u_in s, i)) (incoming (u_in s)) else [].

(** Gate netlists: the form of back-end/Exu/include/fadd.h and fmul.h, and class
    FPURtl, FPU.h:275-380, which wraps them (source only: nothing instantiates
    it).  A netlist is straight-line code [bool nK = [!]nI && [!]nJ;] over
    [n1..n67 = pi[0..66]], with [po[k] = [!]nK;] at the end.  The variable nK is
    number K + 1 here, so n0 (false) is number 1; a literal is the positive
    [2 * number], or [2 * number + 1] when negated.  The lists themselves are in
    NetAdd.v and NetMul.v, transcribed line by line. *)
From Verif Require Import Base.
From Coq Require Import PArith.
Local Open Scope positive_scope.

(** Values by node number: a binary tree over the bits of the number. *)
Inductive tr (A : Type) := Lf | Nd (l : tr A) (o : option A) (r : tr A).
Arguments Lf {A}. Arguments Nd {A}.
Definition lft {A} (t : tr A) := match t with Lf => Lf | Nd l _ _ => l end.
Definition rgt {A} (t : tr A) := match t with Lf => Lf | Nd _ _ r => r end.
Definition top {A} (t : tr A) := match t with Lf => None | Nd _ o _ => o end.
Fixpoint get {A} (p : positive) (t : tr A) : option A :=
  match p with xH => top t | xO q => get q (lft t) | xI q => get q (rgt t) end.
Fixpoint put {A} (p : positive) (v : A) (t : tr A) : tr A :=
  match p with
  | xH => Nd (lft t) (Some v) (rgt t)
  | xO q => Nd (put q v (lft t)) (top t) (rgt t)
  | xI q => Nd (lft t) (top t) (put q v (rgt t)) end.

Definition netlist := (list (positive * positive) * list positive)%type.

Section Eval.
  Context {V : Type} (vF : V) (vneg : V -> V) (vand : V -> V -> V).
  (** Number 1 is never put: it reads as the constant false. *)
  Definition node (m : tr V) (n : positive) : V := match get n m with Some v => v | None => vF end.
  Definition lit (m : tr V) (c : positive) : V :=
    match c with xO n => node m n | xI n => vneg (node m n) | xH => vF end.
  Fixpoint load (vs : list V) (n : positive) (m : tr V) : tr V :=
    match vs with [] => m | v :: vs' => load vs' (Pos.succ n) (put n v m) end.
  Fixpoint gates (gs : list (positive * positive)) (n : positive) (m : tr V) : tr V :=
    match gs with
    | [] => m
    | (a, b) :: gs' => let v := vand (lit m a) (lit m b) in gates gs' (Pos.succ n) (put n v m)
    end.
  Definition run (net : netlist) (pi : list V) : list V :=
    let m := gates (fst net) 69 (load pi 2 Lf) in map (lit m) (snd net).
End Eval.

(** *** FPURtl *)
Local Open Scope Z_scope.
(** uintToBoolArray, boolArrayToUInt, l.288-303 *)
Fixpoint to_bits (n : nat) (v : Z) : list bool :=
  match n with O => [] | S k => Z.odd v :: to_bits k (v / 2) end.
Fixpoint of_bits (l : list bool) : Z := match l with [] => 0 | b :: l' => b2z b + 2 * of_bits l' end.
(** rtlFADD32, rtlFMUL32, l.305-335: the result, and the fflags the function drops. *)
Definition rtl (net : netlist) (a b rm : Z) : Z * Z :=
  let po := run false negb andb net (to_bits 32 a ++ to_bits 32 b ++ to_bits 3 rm) in
  (of_bits (firstn 32 po), of_bits (skipn 32 po)).
(** impl_compute, l.337-364; [None]: assert. *)
Definition fpurtl (add mul : netlist) (fp : bool) (func3 func7 a b : Z) : option Z :=
  if negb fp then Some (fst (rtl add a b func3))
  else let t := Z.shiftr func7 2 in
    if t =? 0 then Some (fst (rtl add a b func3))
    else if t =? 1 then Some (fst (rtl add a (Z.lxor b 0x80000000) func3))
    else if t =? 2 then Some (fst (rtl mul a b func3)) else None.

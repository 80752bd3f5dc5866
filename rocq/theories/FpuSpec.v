(** What the RISC-V single precision instructions in integer registers (Zfinx)
    ask for, written from the manual and independent of the model. *)
From Verif Require Import Base.
Local Open Scope Z_scope.

(** A binary32 pattern and its parts. *)
Definition f_sign (v : Z) : bool := 2 ^ 31 <=? v.
Definition f_mag (v : Z) : Z := v mod 2 ^ 31.           (* exponent and fraction *)
Definition INF := 255 * 2 ^ 23.
(** The ten classes of fclass, with their bit numbers. *)
Inductive fclass := NegInf | NegNormal | NegSub | NegZero | PosZero | PosSub | PosNormal | PosInf | Snan | Qnan.
Definition class_of (v : Z) : fclass :=
  let m := f_mag v in
  if INF <? m then if m <? INF + 2 ^ 22 then Snan else Qnan
  else if m =? INF then if f_sign v then NegInf else PosInf
  else if m =? 0 then if f_sign v then NegZero else PosZero
  else if m <? 2 ^ 23 then if f_sign v then NegSub else PosSub
  else if f_sign v then NegNormal else PosNormal.
Definition class_bit (c : fclass) : Z :=
  match c with NegInf => 0 | NegNormal => 1 | NegSub => 2 | NegZero => 3 | PosZero => 4
             | PosSub => 5 | PosNormal => 6 | PosInf => 7 | Snan => 8 | Qnan => 9 end.
Definition f_nan (v : Z) : Prop := INF < f_mag v.

(** The order of the numbers: sign and magnitude; the two zeros are equal. *)
Definition f_key (v : Z) : Z := if f_sign v then - f_mag v else f_mag v.
(** The same order with -0 below +0, as fmin and fmax want it. *)
Definition f_less (a b : Z) : Prop :=
  f_key a < f_key b \/ (f_key a = f_key b /\ f_sign a = true /\ f_sign b = false).
Definition NAN := 0x7fc00000.
(** [r] is the smaller/larger of two values; a NaN only if both are. *)
Definition is_min (a b r : Z) : Prop :=
  (f_nan a -> f_nan b -> r = NAN) /\
  (f_nan a -> ~ f_nan b -> r = b) /\ (~ f_nan a -> f_nan b -> r = a) /\
  (~ f_nan a -> ~ f_nan b -> (r = a \/ r = b) /\ ~ f_less a r /\ ~ f_less b r).
Definition is_max (a b r : Z) : Prop :=
  (f_nan a -> f_nan b -> r = NAN) /\
  (f_nan a -> ~ f_nan b -> r = b) /\ (~ f_nan a -> f_nan b -> r = a) /\
  (~ f_nan a -> ~ f_nan b -> (r = a \/ r = b) /\ ~ f_less r a /\ ~ f_less r b).

(** Sign injection: the magnitude of [a], the sign given. *)
Definition with_sign (s : bool) (a : Z) : Z := f_mag a + (if s then 2 ^ 31 else 0).

(** The instruction words the extension defines (Zfinx, no fused operations):
    fields of a word. *)
Definition fld (i lo n : Z) : Z := (i / 2 ^ lo) mod 2 ^ n.
Inductive fop := FAdd | FSub | FMul | FDiv | FSqrt | FSgnj | FSgnjn | FSgnjx | FMin | FMax
  | FEq | FLt | FLe | FClass | FCvtW | FCvtWu | FCvtSW | FCvtSWu.
Definition f7_of (o : fop) : Z :=
  match o with FAdd => 0 | FSub => 4 | FMul => 8 | FDiv => 12 | FSqrt => 44 | FSgnj | FSgnjn | FSgnjx => 16
  | FMin | FMax => 20 | FEq | FLt | FLe => 80 | FClass => 112 | FCvtW | FCvtWu => 96 | FCvtSW | FCvtSWu => 104 end.
(** The rounding mode field of the operations that round; a fixed function
    field for the others. *)
Definition f3_ok (o : fop) (f3 : Z) : Prop :=
  match o with
  | FAdd | FSub | FMul | FDiv | FSqrt | FCvtW | FCvtWu | FCvtSW | FCvtSWu => 0 <= f3 <= 4 \/ f3 = 7
  | FSgnj | FMin | FLe => f3 = 0 | FSgnjn | FMax | FLt | FClass => f3 = 1 | FSgnjx | FEq => f3 = 2 end.
Definition rs2_ok (o : fop) (r : Z) : Prop :=
  match o with FSqrt | FClass | FCvtW | FCvtSW => r = 0 | FCvtWu | FCvtSWu => r = 1 | _ => True end.
Definition encodes (i : Z) (o : fop) : Prop :=
  fld i 0 7 = 0x53 /\ fld i 25 7 = f7_of o /\ f3_ok o (fld i 12 3) /\ rs2_ok o (fld i 20 5).

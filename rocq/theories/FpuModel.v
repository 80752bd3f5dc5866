(** The floating point unit the core instantiates: class FPUSoftfloat,
    back-end/Exu/include/FPU.h:18-270, and the way an instruction reaches it
    (decode and decomposition from ExecModel.v).  Softfloat is external: the
    record [sfloat] of RefModel.v.  The exception flags softfloat collects are
    never read (no fcsr in this core) and are left out.  [None]: a failed
    assert. *)
From Verif Require Import Base ExecModel RefModel.
Local Open Scope Z_scope.

(** l.40-42 *)
Definition nan_u32 (v : Z) : bool := (Z.land v 0x7F800000 =? 0x7F800000) && negb (Z.land v 0x007FFFFF =? 0).

(** l.44-83 *)
Definition classify (v : Z) : Z :=
  let sign := nz (Z.land (Z.shiftr v 31) 1) in
  let exp := Z.land (Z.shiftr v 23) 0xFF in
  let mant := Z.land v 0x7FFFFF in
  let sub := (exp =? 0) && negb (mant =? 0) in
  let zero := (exp =? 0) && (mant =? 0) in
  let inf := (exp =? 0xFF) && (mant =? 0) in
  let nan := (exp =? 0xFF) && negb (mant =? 0) in
  let snan := nan && (Z.land (Z.shiftr mant 22) 1 =? 0) in
  let qnan := nan && (Z.land (Z.shiftr mant 22) 1 =? 1) in
  let res :=
    if inf && sign then Z.shiftl 1 0
    else if negb inf && negb zero && negb nan && negb sub && sign then Z.shiftl 1 1
    else if sub && sign then Z.shiftl 1 2
    else if zero && sign then Z.shiftl 1 3
    else if zero && negb sign then Z.shiftl 1 4
    else if sub && negb sign then Z.shiftl 1 5
    else if negb inf && negb zero && negb nan && negb sub && negb sign then Z.shiftl 1 6
    else if inf && negb sign then Z.shiftl 1 7
    else 0 in
  let res := if snan then Z.lor res (Z.shiftl 1 8) else res in
  if qnan then Z.lor res (Z.shiftl 1 9) else res.

(** l.85-109, 111-135 *)
Definition fmin (sf : sfloat) (a b : Z) : Z :=
  if nan_u32 a && nan_u32 b then 0x7fc00000
  else if nan_u32 a then b else if nan_u32 b then a
  else if sf_lt sf a b then a else if sf_lt sf b a then b else Z.lor a b.
Definition fmax (sf : sfloat) (a b : Z) : Z :=
  if nan_u32 a && nan_u32 b then 0x7fc00000
  else if nan_u32 a then b else if nan_u32 b then a
  else if sf_lt sf a b then b else if sf_lt sf b a then a else Z.land a b.

(** impl_compute, l.137-246: [fp] is [inst.op == UOP_FP]. *)
Definition fpu (sf : sfloat) (fp : bool) (func3 func7 imm a b : Z) : option Z :=
  let rm := if func3 =? 7 then 0 else func3 in
  let sel := Z.land imm 0x1F in
  if negb fp then Some (sf_add sf rm a b)
  else if func7 =? 0x60 then
    if sel =? 0 then Some (sf_toi sf rm a) else if sel =? 1 then Some (sf_tou sf rm a) else None
  else if func7 =? 0x68 then
    if sel =? 0 then Some (sf_ofi sf rm a) else if sel =? 1 then Some (sf_ofu sf rm a) else None
  else
    let top := Z.shiftr func7 2 in
    if top =? 0 then Some (sf_add sf rm a b)
    else if top =? 1 then Some (sf_add sf rm a (Z.lxor b 0x80000000))
    else if top =? 2 then Some (sf_mul sf rm a b)
    else if top =? 3 then Some (sf_div sf rm a b)
    else if func7 =? 0x2C then if negb (sel =? 0) then None else Some (sf_sqrt sf rm a)
    else if func7 =? 0x10 then
      if func3 =? 0 then Some (Z.lor (Z.land a (not32 0x80000000)) (Z.land b 0x80000000))
      else if func3 =? 1 then Some (Z.lor (Z.land a (not32 0x80000000)) (Z.land (not32 b) 0x80000000))
      else if func3 =? 2 then Some (Z.lxor a (Z.land b 0x80000000)) else None
    else if func7 =? 0x14 then
      if func3 =? 0 then Some (fmin sf a b) else if func3 =? 1 then Some (fmax sf a b) else None
    else if func7 =? 0x50 then
      if func3 =? 2 then Some (b2z (sf_eq sf a b)) else if func3 =? 1 then Some (b2z (sf_lt sf a b))
      else if func3 =? 0 then Some (b2z (sf_le sf a b)) else None
    else if func7 =? 0x70 then
      if negb (sel =? 0) then None else if func3 =? 1 then Some (classify a) else None
    else None.

(** calculate_latency, l.248-269 *)
Definition latency (fp : bool) (func7 : Z) : Z :=
  if negb fp then 5
  else
    let top := Z.shiftr func7 2 in
    if top =? 2 then 3 else if top =? 3 then 10 else if (top =? 0) || (top =? 1) then 5
    else if (func7 =? 0x60) || (func7 =? 0x68) then 3 else if func7 =? 0x2C then 10 else 5.

(** An instruction through decode, decomposition and this unit: the value it
    writes; [inr tt] when the instruction does not reach the unit. *)
Definition core_fp (sf : sfloat) (i : Z) (rf : Z -> Z) : option Z + unit :=
  let u := decode i in
  match decompose u with
  | [m] =>
      match m_op m with
      | U_FP => inl (fpu sf true (m_func3 m) (m_func7 m) (m_imm m)
                       (operand (m_src1_en m) rf (d_src1_areg u)) (operand (m_src2_en m) rf (d_src2_areg u)))
      | _ => inr tt
      end
  | _ => inr tt
  end.

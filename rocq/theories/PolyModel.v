(** Model of src/crypto/poly1305.cpp. *)
From Verif Require Import Base Bytes ShaModel.

(** poly1305.hpp:58-60 limbs_t *)
Record limbs : Type := Limbs { l0 : Z; l1 : Z; l2 : Z; l3 : Z; l4 : Z }.
(** The words of a limb are uint64_t, or the 64 bit lanes of an extended word.
    [mul] is the one operation that differs: on uint64_t it is the product
    modulo 2^64; on lanes it is mul_epu32 / vmull_u32 (intrinsics/intel/
    intel_128.hpp:163-166, intel_256.hpp:171-174, intel_512.hpp:158-161,
    neon_128.hpp:157-160), the product of the low halves. *)
Definition mul_word (a b : Z) : Z := (a * b) mod 2 ^ 64.
Definition mul_lane (a b : Z) : Z := (a mod 2 ^ 32) * (b mod 2 ^ 32).
Definition add64 (a b : Z) : Z := (a + b) mod 2 ^ 64.
Definition add32 (a b : Z) : Z := (a + b) mod 2 ^ 32.
(** 44-73 *)
Definition limb_mask : Z := 0x03ffffff.
Definition high_bit : Z := 0x01000000.
Definition word_at (o : nat) (data : list Z) : Z := le_value (firstn 4 (skipn o data)).
(** 75-91 constructor: (r_, pad_) *)
Definition make_r (key : list Z) : limbs :=
  Limbs (Z.land (Z.shiftr (word_at 0 key) 0) 0x03ffffff) (Z.land (Z.shiftr (word_at 3 key) 2) 0x03ffff03)
        (Z.land (Z.shiftr (word_at 6 key) 4) 0x03ffc0ff) (Z.land (Z.shiftr (word_at 9 key) 6) 0x03f03fff)
        (Z.land (Z.shiftr (word_at 12 key) 8) 0x000fffff).
Definition make_pad (key : list Z) : list Z := [word_at 16 key; word_at 20 key; word_at 24 key; word_at 28 key].
(** 96-115 limb<0> .. limb<4> *)
Definition load_limbs (data : list Z) (hibit : Z) : limbs :=
  Limbs (Z.land (Z.shiftr (word_at 0 data) 0) limb_mask) (Z.land (Z.shiftr (word_at 3 data) 2) limb_mask)
        (Z.land (Z.shiftr (word_at 6 data) 4) limb_mask) (Z.land (Z.shiftr (word_at 9 data) 6) limb_mask)
        (Z.lor (Z.shiftr (word_at 12 data) 8) hibit).
Section Words.
Variable mul : Z -> Z -> Z.
(** 117-128 scale *)
Definition scale (r : limbs) : limbs := Limbs (mul (l0 r) 5) (mul (l1 r) 5) (mul (l2 r) 5) (mul (l3 r) 5) (mul (l4 r) 5).
(** 130-144 dot *)
Definition dot (a : limbs) (w0 w1 w2 w3 w4 : Z) : Z :=
  add64 (add64 (add64 (mul (l0 a) w0) (mul (l1 a) w1)) (add64 (mul (l2 a) w2) (mul (l3 a) w3))) (mul (l4 a) w4).
(** 146-157 multiply *)
Definition multiply (a r s : limbs) : limbs :=
  Limbs (dot a (l0 r) (l4 s) (l3 s) (l2 s) (l1 s))
        (dot a (l1 r) (l0 r) (l4 s) (l3 s) (l2 s))
        (dot a (l2 r) (l1 r) (l0 r) (l4 s) (l3 s))
        (dot a (l3 r) (l2 r) (l1 r) (l0 r) (l4 s))
        (dot a (l4 r) (l3 r) (l2 r) (l1 r) (l0 r)).
(** 159-185 reduce *)
Definition reduce (d : limbs) : limbs :=
  let c0 := Z.shiftr (l0 d) 26 in
  let d1 := add64 (l1 d) c0 in
  let c1 := Z.shiftr d1 26 in
  let d2 := add64 (l2 d) c1 in
  let c2 := Z.shiftr d2 26 in
  let d3 := add64 (l3 d) c2 in
  let c3 := Z.shiftr d3 26 in
  let d4 := add64 (l4 d) c3 in
  let c4 := Z.shiftr d4 26 in
  let lo := Z.land (l0 d) limb_mask in
  let fo := mul c4 5 in
  let d0 := add64 lo fo in
  let c5 := Z.shiftr d0 26 in
  Limbs (Z.land d0 limb_mask) (add64 (Z.land d1 limb_mask) c5) (Z.land d2 limb_mask) (Z.land d3 limb_mask) (Z.land d4 limb_mask).
End Words.
Definition add_limbs (a b : limbs) : limbs :=
  Limbs (add64 (l0 a) (l0 b)) (add64 (l1 a) (l1 b)) (add64 (l2 a) (l2 b)) (add64 (l3 a) (l3 b)) (add64 (l4 a) (l4 b)).

(** 274-361 xblocks.  The five registers of lanes are modelled transposed, one
    [limbs] per lane; the (data, blocks) cursor as the list of blocks left. *)
(** 280-289 the ladder r, r^2, .., r^count *)
Definition ladder (count : nat) (r s : limbs) : list limbs :=
  fold_left (fun l (_ : nat) => l ++ [reduce mul_word (multiply mul_word (last l r) r s)]) (seq 1 (count - 1)) [r].
(** 187-222 load *)
Definition load (hibit : Z) (bs : list (list Z)) : list limbs := map (fun b => load_limbs b hibit) bs.
Definition zip_with {A B C} (f : A -> B -> C) (a : list A) (b : list B) : list C := map (fun p => f (fst p) (snd p)) (combine a b).
(** 314-333 *)
Fixpoint groups (fuel count : nat) (hibit : Z) (rn sn : limbs) (a : list limbs) (bs : list (list Z)) : list limbs * list (list Z) :=
  match fuel with
  | O => (a, bs)
  | S fuel =>
    if (count <=? length bs)%nat then
      let a := map (fun x => reduce mul_lane (multiply mul_lane x rn sn)) a in
      groups fuel count hibit rn sn (zip_with add_limbs a (load hibit (firstn count bs))) (skipn count bs)
    else (a, bs)
  end.
(** 243-272 sum *)
Definition sum_limbs (xd : list limbs) : limbs :=
  match xd with [] => Limbs 0 0 0 0 0 | x :: xd => fold_left add_limbs xd x end.
Definition xblocks (count : nat) (hibit : Z) (r s : limbs) (st : list (list Z) * limbs) : list (list Z) * limbs :=
  let (bs, h) := st in
  if (2 * count <=? length bs)%nat then
    let lad := ladder count r s in
    let rn := last lad r in
    let sn := scale mul_lane rn in
    let a := match load hibit (firstn count bs) with [] => [] | x :: l => add_limbs h x :: l end in
    let (a, bs) := groups (length bs) count hibit rn sn a (skipn count bs) in
    (* 224-241 descend: lane zero takes the highest power *)
    let xd := zip_with (fun a w => multiply mul_lane a w (scale mul_lane w)) a (rev lad) in
    (bs, reduce mul_word (sum_limbs xd))
  else (bs, h).
(** 366-401 blocks.  [widths] are the lane counts of the extended words the
    processor has, from 8, 4, 2 in that order. *)
Definition narrow (h : limbs) : limbs :=
  Limbs (l0 h mod 2 ^ 32) (l1 h mod 2 ^ 32) (l2 h mod 2 ^ 32) (l3 h mod 2 ^ 32) (l4 h mod 2 ^ 32).
Definition blocks (widths : list nat) (hibit : Z) (r h : limbs) (bs : list (list Z)) : limbs :=
  let s := scale mul_word r in
  let (bs, h) := fold_left (fun st count => xblocks count hibit r s st) widths (bs, h) in
  narrow (fold_left (fun h b => reduce mul_word (multiply mul_word (add_limbs h (load_limbs b hibit)) r s)) bs h).

(** poly1305.hpp:102-106 *)
Record poly : Type := Poly { r_ : limbs; h_ : limbs; pad_ : list Z; buffer_ : list Z; offset_ : nat }.
Definition poly_make (key : list Z) : poly := Poly (make_r key) (Limbs 0 0 0 0 0) (make_pad key) (repeat 0 16) 0.
(** 403-435 write *)
Definition poly_write (widths : list nat) (p : poly) (data : list Z) : poly :=
  let (p, data) :=
    if Nat.eqb (offset_ p) 0 then (p, data)
    else
      let fill := Nat.min (length data) (16 - offset_ p) in
      let buffer := write_at (offset_ p) (firstn fill data) (buffer_ p) in
      let offset := (offset_ p + fill)%nat in
      (if Nat.eqb offset 16 then Poly (r_ p) (blocks widths high_bit (r_ p) (h_ p) [buffer]) (pad_ p) buffer 0
       else Poly (r_ p) (h_ p) (pad_ p) buffer offset, skipn fill data) in
  if Nat.eqb (length data) 0 then p
  else
    let whole := (length data / 16)%nat in
    let h := blocks widths high_bit (r_ p) (h_ p) (chunks 16 whole data) in
    let rest := skipn (whole * 16) data in
    Poly (r_ p) h (pad_ p) (write_at 0 rest (buffer_ p)) (length rest).
(** 447-466 full carry propagation (uint32_t) *)
Definition carry_all (h : limbs) : limbs :=
  let carry := Z.shiftr (l1 h) 26 in
  let h1 := Z.land (l1 h) limb_mask in
  let h2 := add32 (l2 h) carry in
  let carry := Z.shiftr h2 26 in
  let h2 := Z.land h2 limb_mask in
  let h3 := add32 (l3 h) carry in
  let carry := Z.shiftr h3 26 in
  let h3 := Z.land h3 limb_mask in
  let h4 := add32 (l4 h) carry in
  let carry := Z.shiftr h4 26 in
  let h4 := Z.land h4 limb_mask in
  let h0 := add32 (l0 h) ((carry * 5) mod 2 ^ 32) in
  let carry := Z.shiftr h0 26 in
  let h0 := Z.land h0 limb_mask in
  let h1 := add32 h1 carry in
  Limbs h0 h1 h2 h3 h4.
(** 468-497 h + -p, selected if h >= p *)
Definition select_p (h : limbs) : limbs :=
  let g0 := add32 (l0 h) 5 in
  let carry := Z.shiftr g0 26 in
  let g0 := Z.land g0 limb_mask in
  let g1 := add32 (l1 h) carry in
  let carry := Z.shiftr g1 26 in
  let g1 := Z.land g1 limb_mask in
  let g2 := add32 (l2 h) carry in
  let carry := Z.shiftr g2 26 in
  let g2 := Z.land g2 limb_mask in
  let g3 := add32 (l3 h) carry in
  let carry := Z.shiftr g3 26 in
  let g3 := Z.land g3 limb_mask in
  let g4 := (l4 h + carry - 0x04000000) mod 2 ^ 32 in
  let mask := (Z.shiftr g4 31 - 1) mod 2 ^ 32 in
  let not_mask := Z.lxor mask 0xffffffff in
  let sel h g := Z.lor (Z.land h not_mask) (Z.land g mask) in
  Limbs (sel (l0 h) g0) (sel (l1 h) g1) (sel (l2 h) g2) (sel (l3 h) g3) (sel (l4 h) g4).
(** 499-503 h = h % 2^128 in four words *)
Definition shl32 (x n : Z) : Z := Z.shiftl x n mod 2 ^ 32.
Definition pack (h : limbs) : list Z :=
  [Z.lor (Z.shiftr (l0 h) 0) (shl32 (l1 h) 26); Z.lor (Z.shiftr (l1 h) 6) (shl32 (l2 h) 20);
   Z.lor (Z.shiftr (l2 h) 12) (shl32 (l3 h) 14); Z.lor (Z.shiftr (l3 h) 18) (shl32 (l4 h) 8)].
(** 505-517 add the pad; f is uint64_t *)
Fixpoint add_pad (f : Z) (h pad : list Z) : list Z :=
  match h, pad with
  | x :: h, y :: pad => let f := add64 (add64 x y) (Z.shiftr f 32) in (f mod 2 ^ 32) :: add_pad f h pad
  | _, _ => []
  end.
(** 437-519 flush *)
Definition poly_flush (widths : list nat) (p : poly) : list Z :=
  let h := if Nat.eqb (offset_ p) 0 then h_ p
           else blocks widths 0 (r_ p) (h_ p) [firstn (offset_ p) (buffer_ p) ++ [1] ++ repeat 0 (16 - S (offset_ p))] in
  flat_map (le_bytes 4) (add_pad 0 (pack (select_p (carry_all h))) (pad_ p)).

(** The field with 32 elements, as used by the bech32 code (BIP173): five bit
    symbols, addition is exclusive or, multiplication modulo z^5 + z^3 + 1.
    Generated tables; the laws are checked exhaustively below. *)
From Verif Require Import Base RadixProofs3.
From Coq Require Import Ring.

Inductive gf := G0 | G1 | G2 | G3 | G4 | G5 | G6 | G7 | G8 | G9 | G10 | G11 | G12 | G13 | G14 | G15 | G16 | G17 | G18 | G19 | G20 | G21 | G22 | G23 | G24 | G25 | G26 | G27 | G28 | G29 | G30 | G31.
Definition gz (x : gf) : Z :=
  match x with G0 => 0 | G1 => 1 | G2 => 2 | G3 => 3 | G4 => 4 | G5 => 5 | G6 => 6 | G7 => 7 | G8 => 8 | G9 => 9 | G10 => 10 | G11 => 11 | G12 => 12 | G13 => 13 | G14 => 14 | G15 => 15 | G16 => 16 | G17 => 17 | G18 => 18 | G19 => 19 | G20 => 20 | G21 => 21 | G22 => 22 | G23 => 23 | G24 => 24 | G25 => 25 | G26 => 26 | G27 => 27 | G28 => 28 | G29 => 29 | G30 => 30 | G31 => 31 end.
Definition all_gf : list gf := [G0; G1; G2; G3; G4; G5; G6; G7; G8; G9; G10; G11; G12; G13; G14; G15; G16; G17; G18; G19; G20; G21; G22; G23; G24; G25; G26; G27; G28; G29; G30; G31].
Definition zg (v : Z) : gf := nth (Z.to_nat v) all_gf G0.
Definition gadd (x y : gf) : gf :=
  match x with
  | G0 => y
  | G1 => match y with G0 => G1 | G1 => G0 | G2 => G3 | G3 => G2 | G4 => G5 | G5 => G4 | G6 => G7 | G7 => G6 | G8 => G9 | G9 => G8 | G10 => G11 | G11 => G10 | G12 => G13 | G13 => G12 | G14 => G15 | G15 => G14 | G16 => G17 | G17 => G16 | G18 => G19 | G19 => G18 | G20 => G21 | G21 => G20 | G22 => G23 | G23 => G22 | G24 => G25 | G25 => G24 | G26 => G27 | G27 => G26 | G28 => G29 | G29 => G28 | G30 => G31 | G31 => G30 end
  | G2 => match y with G0 => G2 | G1 => G3 | G2 => G0 | G3 => G1 | G4 => G6 | G5 => G7 | G6 => G4 | G7 => G5 | G8 => G10 | G9 => G11 | G10 => G8 | G11 => G9 | G12 => G14 | G13 => G15 | G14 => G12 | G15 => G13 | G16 => G18 | G17 => G19 | G18 => G16 | G19 => G17 | G20 => G22 | G21 => G23 | G22 => G20 | G23 => G21 | G24 => G26 | G25 => G27 | G26 => G24 | G27 => G25 | G28 => G30 | G29 => G31 | G30 => G28 | G31 => G29 end
  | G3 => match y with G0 => G3 | G1 => G2 | G2 => G1 | G3 => G0 | G4 => G7 | G5 => G6 | G6 => G5 | G7 => G4 | G8 => G11 | G9 => G10 | G10 => G9 | G11 => G8 | G12 => G15 | G13 => G14 | G14 => G13 | G15 => G12 | G16 => G19 | G17 => G18 | G18 => G17 | G19 => G16 | G20 => G23 | G21 => G22 | G22 => G21 | G23 => G20 | G24 => G27 | G25 => G26 | G26 => G25 | G27 => G24 | G28 => G31 | G29 => G30 | G30 => G29 | G31 => G28 end
  | G4 => match y with G0 => G4 | G1 => G5 | G2 => G6 | G3 => G7 | G4 => G0 | G5 => G1 | G6 => G2 | G7 => G3 | G8 => G12 | G9 => G13 | G10 => G14 | G11 => G15 | G12 => G8 | G13 => G9 | G14 => G10 | G15 => G11 | G16 => G20 | G17 => G21 | G18 => G22 | G19 => G23 | G20 => G16 | G21 => G17 | G22 => G18 | G23 => G19 | G24 => G28 | G25 => G29 | G26 => G30 | G27 => G31 | G28 => G24 | G29 => G25 | G30 => G26 | G31 => G27 end
  | G5 => match y with G0 => G5 | G1 => G4 | G2 => G7 | G3 => G6 | G4 => G1 | G5 => G0 | G6 => G3 | G7 => G2 | G8 => G13 | G9 => G12 | G10 => G15 | G11 => G14 | G12 => G9 | G13 => G8 | G14 => G11 | G15 => G10 | G16 => G21 | G17 => G20 | G18 => G23 | G19 => G22 | G20 => G17 | G21 => G16 | G22 => G19 | G23 => G18 | G24 => G29 | G25 => G28 | G26 => G31 | G27 => G30 | G28 => G25 | G29 => G24 | G30 => G27 | G31 => G26 end
  | G6 => match y with G0 => G6 | G1 => G7 | G2 => G4 | G3 => G5 | G4 => G2 | G5 => G3 | G6 => G0 | G7 => G1 | G8 => G14 | G9 => G15 | G10 => G12 | G11 => G13 | G12 => G10 | G13 => G11 | G14 => G8 | G15 => G9 | G16 => G22 | G17 => G23 | G18 => G20 | G19 => G21 | G20 => G18 | G21 => G19 | G22 => G16 | G23 => G17 | G24 => G30 | G25 => G31 | G26 => G28 | G27 => G29 | G28 => G26 | G29 => G27 | G30 => G24 | G31 => G25 end
  | G7 => match y with G0 => G7 | G1 => G6 | G2 => G5 | G3 => G4 | G4 => G3 | G5 => G2 | G6 => G1 | G7 => G0 | G8 => G15 | G9 => G14 | G10 => G13 | G11 => G12 | G12 => G11 | G13 => G10 | G14 => G9 | G15 => G8 | G16 => G23 | G17 => G22 | G18 => G21 | G19 => G20 | G20 => G19 | G21 => G18 | G22 => G17 | G23 => G16 | G24 => G31 | G25 => G30 | G26 => G29 | G27 => G28 | G28 => G27 | G29 => G26 | G30 => G25 | G31 => G24 end
  | G8 => match y with G0 => G8 | G1 => G9 | G2 => G10 | G3 => G11 | G4 => G12 | G5 => G13 | G6 => G14 | G7 => G15 | G8 => G0 | G9 => G1 | G10 => G2 | G11 => G3 | G12 => G4 | G13 => G5 | G14 => G6 | G15 => G7 | G16 => G24 | G17 => G25 | G18 => G26 | G19 => G27 | G20 => G28 | G21 => G29 | G22 => G30 | G23 => G31 | G24 => G16 | G25 => G17 | G26 => G18 | G27 => G19 | G28 => G20 | G29 => G21 | G30 => G22 | G31 => G23 end
  | G9 => match y with G0 => G9 | G1 => G8 | G2 => G11 | G3 => G10 | G4 => G13 | G5 => G12 | G6 => G15 | G7 => G14 | G8 => G1 | G9 => G0 | G10 => G3 | G11 => G2 | G12 => G5 | G13 => G4 | G14 => G7 | G15 => G6 | G16 => G25 | G17 => G24 | G18 => G27 | G19 => G26 | G20 => G29 | G21 => G28 | G22 => G31 | G23 => G30 | G24 => G17 | G25 => G16 | G26 => G19 | G27 => G18 | G28 => G21 | G29 => G20 | G30 => G23 | G31 => G22 end
  | G10 => match y with G0 => G10 | G1 => G11 | G2 => G8 | G3 => G9 | G4 => G14 | G5 => G15 | G6 => G12 | G7 => G13 | G8 => G2 | G9 => G3 | G10 => G0 | G11 => G1 | G12 => G6 | G13 => G7 | G14 => G4 | G15 => G5 | G16 => G26 | G17 => G27 | G18 => G24 | G19 => G25 | G20 => G30 | G21 => G31 | G22 => G28 | G23 => G29 | G24 => G18 | G25 => G19 | G26 => G16 | G27 => G17 | G28 => G22 | G29 => G23 | G30 => G20 | G31 => G21 end
  | G11 => match y with G0 => G11 | G1 => G10 | G2 => G9 | G3 => G8 | G4 => G15 | G5 => G14 | G6 => G13 | G7 => G12 | G8 => G3 | G9 => G2 | G10 => G1 | G11 => G0 | G12 => G7 | G13 => G6 | G14 => G5 | G15 => G4 | G16 => G27 | G17 => G26 | G18 => G25 | G19 => G24 | G20 => G31 | G21 => G30 | G22 => G29 | G23 => G28 | G24 => G19 | G25 => G18 | G26 => G17 | G27 => G16 | G28 => G23 | G29 => G22 | G30 => G21 | G31 => G20 end
  | G12 => match y with G0 => G12 | G1 => G13 | G2 => G14 | G3 => G15 | G4 => G8 | G5 => G9 | G6 => G10 | G7 => G11 | G8 => G4 | G9 => G5 | G10 => G6 | G11 => G7 | G12 => G0 | G13 => G1 | G14 => G2 | G15 => G3 | G16 => G28 | G17 => G29 | G18 => G30 | G19 => G31 | G20 => G24 | G21 => G25 | G22 => G26 | G23 => G27 | G24 => G20 | G25 => G21 | G26 => G22 | G27 => G23 | G28 => G16 | G29 => G17 | G30 => G18 | G31 => G19 end
  | G13 => match y with G0 => G13 | G1 => G12 | G2 => G15 | G3 => G14 | G4 => G9 | G5 => G8 | G6 => G11 | G7 => G10 | G8 => G5 | G9 => G4 | G10 => G7 | G11 => G6 | G12 => G1 | G13 => G0 | G14 => G3 | G15 => G2 | G16 => G29 | G17 => G28 | G18 => G31 | G19 => G30 | G20 => G25 | G21 => G24 | G22 => G27 | G23 => G26 | G24 => G21 | G25 => G20 | G26 => G23 | G27 => G22 | G28 => G17 | G29 => G16 | G30 => G19 | G31 => G18 end
  | G14 => match y with G0 => G14 | G1 => G15 | G2 => G12 | G3 => G13 | G4 => G10 | G5 => G11 | G6 => G8 | G7 => G9 | G8 => G6 | G9 => G7 | G10 => G4 | G11 => G5 | G12 => G2 | G13 => G3 | G14 => G0 | G15 => G1 | G16 => G30 | G17 => G31 | G18 => G28 | G19 => G29 | G20 => G26 | G21 => G27 | G22 => G24 | G23 => G25 | G24 => G22 | G25 => G23 | G26 => G20 | G27 => G21 | G28 => G18 | G29 => G19 | G30 => G16 | G31 => G17 end
  | G15 => match y with G0 => G15 | G1 => G14 | G2 => G13 | G3 => G12 | G4 => G11 | G5 => G10 | G6 => G9 | G7 => G8 | G8 => G7 | G9 => G6 | G10 => G5 | G11 => G4 | G12 => G3 | G13 => G2 | G14 => G1 | G15 => G0 | G16 => G31 | G17 => G30 | G18 => G29 | G19 => G28 | G20 => G27 | G21 => G26 | G22 => G25 | G23 => G24 | G24 => G23 | G25 => G22 | G26 => G21 | G27 => G20 | G28 => G19 | G29 => G18 | G30 => G17 | G31 => G16 end
  | G16 => match y with G0 => G16 | G1 => G17 | G2 => G18 | G3 => G19 | G4 => G20 | G5 => G21 | G6 => G22 | G7 => G23 | G8 => G24 | G9 => G25 | G10 => G26 | G11 => G27 | G12 => G28 | G13 => G29 | G14 => G30 | G15 => G31 | G16 => G0 | G17 => G1 | G18 => G2 | G19 => G3 | G20 => G4 | G21 => G5 | G22 => G6 | G23 => G7 | G24 => G8 | G25 => G9 | G26 => G10 | G27 => G11 | G28 => G12 | G29 => G13 | G30 => G14 | G31 => G15 end
  | G17 => match y with G0 => G17 | G1 => G16 | G2 => G19 | G3 => G18 | G4 => G21 | G5 => G20 | G6 => G23 | G7 => G22 | G8 => G25 | G9 => G24 | G10 => G27 | G11 => G26 | G12 => G29 | G13 => G28 | G14 => G31 | G15 => G30 | G16 => G1 | G17 => G0 | G18 => G3 | G19 => G2 | G20 => G5 | G21 => G4 | G22 => G7 | G23 => G6 | G24 => G9 | G25 => G8 | G26 => G11 | G27 => G10 | G28 => G13 | G29 => G12 | G30 => G15 | G31 => G14 end
  | G18 => match y with G0 => G18 | G1 => G19 | G2 => G16 | G3 => G17 | G4 => G22 | G5 => G23 | G6 => G20 | G7 => G21 | G8 => G26 | G9 => G27 | G10 => G24 | G11 => G25 | G12 => G30 | G13 => G31 | G14 => G28 | G15 => G29 | G16 => G2 | G17 => G3 | G18 => G0 | G19 => G1 | G20 => G6 | G21 => G7 | G22 => G4 | G23 => G5 | G24 => G10 | G25 => G11 | G26 => G8 | G27 => G9 | G28 => G14 | G29 => G15 | G30 => G12 | G31 => G13 end
  | G19 => match y with G0 => G19 | G1 => G18 | G2 => G17 | G3 => G16 | G4 => G23 | G5 => G22 | G6 => G21 | G7 => G20 | G8 => G27 | G9 => G26 | G10 => G25 | G11 => G24 | G12 => G31 | G13 => G30 | G14 => G29 | G15 => G28 | G16 => G3 | G17 => G2 | G18 => G1 | G19 => G0 | G20 => G7 | G21 => G6 | G22 => G5 | G23 => G4 | G24 => G11 | G25 => G10 | G26 => G9 | G27 => G8 | G28 => G15 | G29 => G14 | G30 => G13 | G31 => G12 end
  | G20 => match y with G0 => G20 | G1 => G21 | G2 => G22 | G3 => G23 | G4 => G16 | G5 => G17 | G6 => G18 | G7 => G19 | G8 => G28 | G9 => G29 | G10 => G30 | G11 => G31 | G12 => G24 | G13 => G25 | G14 => G26 | G15 => G27 | G16 => G4 | G17 => G5 | G18 => G6 | G19 => G7 | G20 => G0 | G21 => G1 | G22 => G2 | G23 => G3 | G24 => G12 | G25 => G13 | G26 => G14 | G27 => G15 | G28 => G8 | G29 => G9 | G30 => G10 | G31 => G11 end
  | G21 => match y with G0 => G21 | G1 => G20 | G2 => G23 | G3 => G22 | G4 => G17 | G5 => G16 | G6 => G19 | G7 => G18 | G8 => G29 | G9 => G28 | G10 => G31 | G11 => G30 | G12 => G25 | G13 => G24 | G14 => G27 | G15 => G26 | G16 => G5 | G17 => G4 | G18 => G7 | G19 => G6 | G20 => G1 | G21 => G0 | G22 => G3 | G23 => G2 | G24 => G13 | G25 => G12 | G26 => G15 | G27 => G14 | G28 => G9 | G29 => G8 | G30 => G11 | G31 => G10 end
  | G22 => match y with G0 => G22 | G1 => G23 | G2 => G20 | G3 => G21 | G4 => G18 | G5 => G19 | G6 => G16 | G7 => G17 | G8 => G30 | G9 => G31 | G10 => G28 | G11 => G29 | G12 => G26 | G13 => G27 | G14 => G24 | G15 => G25 | G16 => G6 | G17 => G7 | G18 => G4 | G19 => G5 | G20 => G2 | G21 => G3 | G22 => G0 | G23 => G1 | G24 => G14 | G25 => G15 | G26 => G12 | G27 => G13 | G28 => G10 | G29 => G11 | G30 => G8 | G31 => G9 end
  | G23 => match y with G0 => G23 | G1 => G22 | G2 => G21 | G3 => G20 | G4 => G19 | G5 => G18 | G6 => G17 | G7 => G16 | G8 => G31 | G9 => G30 | G10 => G29 | G11 => G28 | G12 => G27 | G13 => G26 | G14 => G25 | G15 => G24 | G16 => G7 | G17 => G6 | G18 => G5 | G19 => G4 | G20 => G3 | G21 => G2 | G22 => G1 | G23 => G0 | G24 => G15 | G25 => G14 | G26 => G13 | G27 => G12 | G28 => G11 | G29 => G10 | G30 => G9 | G31 => G8 end
  | G24 => match y with G0 => G24 | G1 => G25 | G2 => G26 | G3 => G27 | G4 => G28 | G5 => G29 | G6 => G30 | G7 => G31 | G8 => G16 | G9 => G17 | G10 => G18 | G11 => G19 | G12 => G20 | G13 => G21 | G14 => G22 | G15 => G23 | G16 => G8 | G17 => G9 | G18 => G10 | G19 => G11 | G20 => G12 | G21 => G13 | G22 => G14 | G23 => G15 | G24 => G0 | G25 => G1 | G26 => G2 | G27 => G3 | G28 => G4 | G29 => G5 | G30 => G6 | G31 => G7 end
  | G25 => match y with G0 => G25 | G1 => G24 | G2 => G27 | G3 => G26 | G4 => G29 | G5 => G28 | G6 => G31 | G7 => G30 | G8 => G17 | G9 => G16 | G10 => G19 | G11 => G18 | G12 => G21 | G13 => G20 | G14 => G23 | G15 => G22 | G16 => G9 | G17 => G8 | G18 => G11 | G19 => G10 | G20 => G13 | G21 => G12 | G22 => G15 | G23 => G14 | G24 => G1 | G25 => G0 | G26 => G3 | G27 => G2 | G28 => G5 | G29 => G4 | G30 => G7 | G31 => G6 end
  | G26 => match y with G0 => G26 | G1 => G27 | G2 => G24 | G3 => G25 | G4 => G30 | G5 => G31 | G6 => G28 | G7 => G29 | G8 => G18 | G9 => G19 | G10 => G16 | G11 => G17 | G12 => G22 | G13 => G23 | G14 => G20 | G15 => G21 | G16 => G10 | G17 => G11 | G18 => G8 | G19 => G9 | G20 => G14 | G21 => G15 | G22 => G12 | G23 => G13 | G24 => G2 | G25 => G3 | G26 => G0 | G27 => G1 | G28 => G6 | G29 => G7 | G30 => G4 | G31 => G5 end
  | G27 => match y with G0 => G27 | G1 => G26 | G2 => G25 | G3 => G24 | G4 => G31 | G5 => G30 | G6 => G29 | G7 => G28 | G8 => G19 | G9 => G18 | G10 => G17 | G11 => G16 | G12 => G23 | G13 => G22 | G14 => G21 | G15 => G20 | G16 => G11 | G17 => G10 | G18 => G9 | G19 => G8 | G20 => G15 | G21 => G14 | G22 => G13 | G23 => G12 | G24 => G3 | G25 => G2 | G26 => G1 | G27 => G0 | G28 => G7 | G29 => G6 | G30 => G5 | G31 => G4 end
  | G28 => match y with G0 => G28 | G1 => G29 | G2 => G30 | G3 => G31 | G4 => G24 | G5 => G25 | G6 => G26 | G7 => G27 | G8 => G20 | G9 => G21 | G10 => G22 | G11 => G23 | G12 => G16 | G13 => G17 | G14 => G18 | G15 => G19 | G16 => G12 | G17 => G13 | G18 => G14 | G19 => G15 | G20 => G8 | G21 => G9 | G22 => G10 | G23 => G11 | G24 => G4 | G25 => G5 | G26 => G6 | G27 => G7 | G28 => G0 | G29 => G1 | G30 => G2 | G31 => G3 end
  | G29 => match y with G0 => G29 | G1 => G28 | G2 => G31 | G3 => G30 | G4 => G25 | G5 => G24 | G6 => G27 | G7 => G26 | G8 => G21 | G9 => G20 | G10 => G23 | G11 => G22 | G12 => G17 | G13 => G16 | G14 => G19 | G15 => G18 | G16 => G13 | G17 => G12 | G18 => G15 | G19 => G14 | G20 => G9 | G21 => G8 | G22 => G11 | G23 => G10 | G24 => G5 | G25 => G4 | G26 => G7 | G27 => G6 | G28 => G1 | G29 => G0 | G30 => G3 | G31 => G2 end
  | G30 => match y with G0 => G30 | G1 => G31 | G2 => G28 | G3 => G29 | G4 => G26 | G5 => G27 | G6 => G24 | G7 => G25 | G8 => G22 | G9 => G23 | G10 => G20 | G11 => G21 | G12 => G18 | G13 => G19 | G14 => G16 | G15 => G17 | G16 => G14 | G17 => G15 | G18 => G12 | G19 => G13 | G20 => G10 | G21 => G11 | G22 => G8 | G23 => G9 | G24 => G6 | G25 => G7 | G26 => G4 | G27 => G5 | G28 => G2 | G29 => G3 | G30 => G0 | G31 => G1 end
  | G31 => match y with G0 => G31 | G1 => G30 | G2 => G29 | G3 => G28 | G4 => G27 | G5 => G26 | G6 => G25 | G7 => G24 | G8 => G23 | G9 => G22 | G10 => G21 | G11 => G20 | G12 => G19 | G13 => G18 | G14 => G17 | G15 => G16 | G16 => G15 | G17 => G14 | G18 => G13 | G19 => G12 | G20 => G11 | G21 => G10 | G22 => G9 | G23 => G8 | G24 => G7 | G25 => G6 | G26 => G5 | G27 => G4 | G28 => G3 | G29 => G2 | G30 => G1 | G31 => G0 end
  end.
Definition gmul (x y : gf) : gf :=
  match x with
  | G0 => G0
  | G1 => match y with G0 => G0 | G1 => G1 | G2 => G2 | G3 => G3 | G4 => G4 | G5 => G5 | G6 => G6 | G7 => G7 | G8 => G8 | G9 => G9 | G10 => G10 | G11 => G11 | G12 => G12 | G13 => G13 | G14 => G14 | G15 => G15 | G16 => G16 | G17 => G17 | G18 => G18 | G19 => G19 | G20 => G20 | G21 => G21 | G22 => G22 | G23 => G23 | G24 => G24 | G25 => G25 | G26 => G26 | G27 => G27 | G28 => G28 | G29 => G29 | G30 => G30 | G31 => G31 end
  | G2 => match y with G0 => G0 | G1 => G2 | G2 => G4 | G3 => G6 | G4 => G8 | G5 => G10 | G6 => G12 | G7 => G14 | G8 => G16 | G9 => G18 | G10 => G20 | G11 => G22 | G12 => G24 | G13 => G26 | G14 => G28 | G15 => G30 | G16 => G9 | G17 => G11 | G18 => G13 | G19 => G15 | G20 => G1 | G21 => G3 | G22 => G5 | G23 => G7 | G24 => G25 | G25 => G27 | G26 => G29 | G27 => G31 | G28 => G17 | G29 => G19 | G30 => G21 | G31 => G23 end
  | G3 => match y with G0 => G0 | G1 => G3 | G2 => G6 | G3 => G5 | G4 => G12 | G5 => G15 | G6 => G10 | G7 => G9 | G8 => G24 | G9 => G27 | G10 => G30 | G11 => G29 | G12 => G20 | G13 => G23 | G14 => G18 | G15 => G17 | G16 => G25 | G17 => G26 | G18 => G31 | G19 => G28 | G20 => G21 | G21 => G22 | G22 => G19 | G23 => G16 | G24 => G1 | G25 => G2 | G26 => G7 | G27 => G4 | G28 => G13 | G29 => G14 | G30 => G11 | G31 => G8 end
  | G4 => match y with G0 => G0 | G1 => G4 | G2 => G8 | G3 => G12 | G4 => G16 | G5 => G20 | G6 => G24 | G7 => G28 | G8 => G9 | G9 => G13 | G10 => G1 | G11 => G5 | G12 => G25 | G13 => G29 | G14 => G17 | G15 => G21 | G16 => G18 | G17 => G22 | G18 => G26 | G19 => G30 | G20 => G2 | G21 => G6 | G22 => G10 | G23 => G14 | G24 => G27 | G25 => G31 | G26 => G19 | G27 => G23 | G28 => G11 | G29 => G15 | G30 => G3 | G31 => G7 end
  | G5 => match y with G0 => G0 | G1 => G5 | G2 => G10 | G3 => G15 | G4 => G20 | G5 => G17 | G6 => G30 | G7 => G27 | G8 => G1 | G9 => G4 | G10 => G11 | G11 => G14 | G12 => G21 | G13 => G16 | G14 => G31 | G15 => G26 | G16 => G2 | G17 => G7 | G18 => G8 | G19 => G13 | G20 => G22 | G21 => G19 | G22 => G28 | G23 => G25 | G24 => G3 | G25 => G6 | G26 => G9 | G27 => G12 | G28 => G23 | G29 => G18 | G30 => G29 | G31 => G24 end
  | G6 => match y with G0 => G0 | G1 => G6 | G2 => G12 | G3 => G10 | G4 => G24 | G5 => G30 | G6 => G20 | G7 => G18 | G8 => G25 | G9 => G31 | G10 => G21 | G11 => G19 | G12 => G1 | G13 => G7 | G14 => G13 | G15 => G11 | G16 => G27 | G17 => G29 | G18 => G23 | G19 => G17 | G20 => G3 | G21 => G5 | G22 => G15 | G23 => G9 | G24 => G2 | G25 => G4 | G26 => G14 | G27 => G8 | G28 => G26 | G29 => G28 | G30 => G22 | G31 => G16 end
  | G7 => match y with G0 => G0 | G1 => G7 | G2 => G14 | G3 => G9 | G4 => G28 | G5 => G27 | G6 => G18 | G7 => G21 | G8 => G17 | G9 => G22 | G10 => G31 | G11 => G24 | G12 => G13 | G13 => G10 | G14 => G3 | G15 => G4 | G16 => G11 | G17 => G12 | G18 => G5 | G19 => G2 | G20 => G23 | G21 => G16 | G22 => G25 | G23 => G30 | G24 => G26 | G25 => G29 | G26 => G20 | G27 => G19 | G28 => G6 | G29 => G1 | G30 => G8 | G31 => G15 end
  | G8 => match y with G0 => G0 | G1 => G8 | G2 => G16 | G3 => G24 | G4 => G9 | G5 => G1 | G6 => G25 | G7 => G17 | G8 => G18 | G9 => G26 | G10 => G2 | G11 => G10 | G12 => G27 | G13 => G19 | G14 => G11 | G15 => G3 | G16 => G13 | G17 => G5 | G18 => G29 | G19 => G21 | G20 => G4 | G21 => G12 | G22 => G20 | G23 => G28 | G24 => G31 | G25 => G23 | G26 => G15 | G27 => G7 | G28 => G22 | G29 => G30 | G30 => G6 | G31 => G14 end
  | G9 => match y with G0 => G0 | G1 => G9 | G2 => G18 | G3 => G27 | G4 => G13 | G5 => G4 | G6 => G31 | G7 => G22 | G8 => G26 | G9 => G19 | G10 => G8 | G11 => G1 | G12 => G23 | G13 => G30 | G14 => G5 | G15 => G12 | G16 => G29 | G17 => G20 | G18 => G15 | G19 => G6 | G20 => G16 | G21 => G25 | G22 => G2 | G23 => G11 | G24 => G7 | G25 => G14 | G26 => G21 | G27 => G28 | G28 => G10 | G29 => G3 | G30 => G24 | G31 => G17 end
  | G10 => match y with G0 => G0 | G1 => G10 | G2 => G20 | G3 => G30 | G4 => G1 | G5 => G11 | G6 => G21 | G7 => G31 | G8 => G2 | G9 => G8 | G10 => G22 | G11 => G28 | G12 => G3 | G13 => G9 | G14 => G23 | G15 => G29 | G16 => G4 | G17 => G14 | G18 => G16 | G19 => G26 | G20 => G5 | G21 => G15 | G22 => G17 | G23 => G27 | G24 => G6 | G25 => G12 | G26 => G18 | G27 => G24 | G28 => G7 | G29 => G13 | G30 => G19 | G31 => G25 end
  | G11 => match y with G0 => G0 | G1 => G11 | G2 => G22 | G3 => G29 | G4 => G5 | G5 => G14 | G6 => G19 | G7 => G24 | G8 => G10 | G9 => G1 | G10 => G28 | G11 => G23 | G12 => G15 | G13 => G4 | G14 => G25 | G15 => G18 | G16 => G20 | G17 => G31 | G18 => G2 | G19 => G9 | G20 => G17 | G21 => G26 | G22 => G7 | G23 => G12 | G24 => G30 | G25 => G21 | G26 => G8 | G27 => G3 | G28 => G27 | G29 => G16 | G30 => G13 | G31 => G6 end
  | G12 => match y with G0 => G0 | G1 => G12 | G2 => G24 | G3 => G20 | G4 => G25 | G5 => G21 | G6 => G1 | G7 => G13 | G8 => G27 | G9 => G23 | G10 => G3 | G11 => G15 | G12 => G2 | G13 => G14 | G14 => G26 | G15 => G22 | G16 => G31 | G17 => G19 | G18 => G7 | G19 => G11 | G20 => G6 | G21 => G10 | G22 => G30 | G23 => G18 | G24 => G4 | G25 => G8 | G26 => G28 | G27 => G16 | G28 => G29 | G29 => G17 | G30 => G5 | G31 => G9 end
  | G13 => match y with G0 => G0 | G1 => G13 | G2 => G26 | G3 => G23 | G4 => G29 | G5 => G16 | G6 => G7 | G7 => G10 | G8 => G19 | G9 => G30 | G10 => G9 | G11 => G4 | G12 => G14 | G13 => G3 | G14 => G20 | G15 => G25 | G16 => G15 | G17 => G2 | G18 => G21 | G19 => G24 | G20 => G18 | G21 => G31 | G22 => G8 | G23 => G5 | G24 => G28 | G25 => G17 | G26 => G6 | G27 => G11 | G28 => G1 | G29 => G12 | G30 => G27 | G31 => G22 end
  | G14 => match y with G0 => G0 | G1 => G14 | G2 => G28 | G3 => G18 | G4 => G17 | G5 => G31 | G6 => G13 | G7 => G3 | G8 => G11 | G9 => G5 | G10 => G23 | G11 => G25 | G12 => G26 | G13 => G20 | G14 => G6 | G15 => G8 | G16 => G22 | G17 => G24 | G18 => G10 | G19 => G4 | G20 => G7 | G21 => G9 | G22 => G27 | G23 => G21 | G24 => G29 | G25 => G19 | G26 => G1 | G27 => G15 | G28 => G12 | G29 => G2 | G30 => G16 | G31 => G30 end
  | G15 => match y with G0 => G0 | G1 => G15 | G2 => G30 | G3 => G17 | G4 => G21 | G5 => G26 | G6 => G11 | G7 => G4 | G8 => G3 | G9 => G12 | G10 => G29 | G11 => G18 | G12 => G22 | G13 => G25 | G14 => G8 | G15 => G7 | G16 => G6 | G17 => G9 | G18 => G24 | G19 => G23 | G20 => G19 | G21 => G28 | G22 => G13 | G23 => G2 | G24 => G5 | G25 => G10 | G26 => G27 | G27 => G20 | G28 => G16 | G29 => G31 | G30 => G14 | G31 => G1 end
  | G16 => match y with G0 => G0 | G1 => G16 | G2 => G9 | G3 => G25 | G4 => G18 | G5 => G2 | G6 => G27 | G7 => G11 | G8 => G13 | G9 => G29 | G10 => G4 | G11 => G20 | G12 => G31 | G13 => G15 | G14 => G22 | G15 => G6 | G16 => G26 | G17 => G10 | G18 => G19 | G19 => G3 | G20 => G8 | G21 => G24 | G22 => G1 | G23 => G17 | G24 => G23 | G25 => G7 | G26 => G30 | G27 => G14 | G28 => G5 | G29 => G21 | G30 => G12 | G31 => G28 end
  | G17 => match y with G0 => G0 | G1 => G17 | G2 => G11 | G3 => G26 | G4 => G22 | G5 => G7 | G6 => G29 | G7 => G12 | G8 => G5 | G9 => G20 | G10 => G14 | G11 => G31 | G12 => G19 | G13 => G2 | G14 => G24 | G15 => G9 | G16 => G10 | G17 => G27 | G18 => G1 | G19 => G16 | G20 => G28 | G21 => G13 | G22 => G23 | G23 => G6 | G24 => G15 | G25 => G30 | G26 => G4 | G27 => G21 | G28 => G25 | G29 => G8 | G30 => G18 | G31 => G3 end
  | G18 => match y with G0 => G0 | G1 => G18 | G2 => G13 | G3 => G31 | G4 => G26 | G5 => G8 | G6 => G23 | G7 => G5 | G8 => G29 | G9 => G15 | G10 => G16 | G11 => G2 | G12 => G7 | G13 => G21 | G14 => G10 | G15 => G24 | G16 => G19 | G17 => G1 | G18 => G30 | G19 => G12 | G20 => G9 | G21 => G27 | G22 => G4 | G23 => G22 | G24 => G14 | G25 => G28 | G26 => G3 | G27 => G17 | G28 => G20 | G29 => G6 | G30 => G25 | G31 => G11 end
  | G19 => match y with G0 => G0 | G1 => G19 | G2 => G15 | G3 => G28 | G4 => G30 | G5 => G13 | G6 => G17 | G7 => G2 | G8 => G21 | G9 => G6 | G10 => G26 | G11 => G9 | G12 => G11 | G13 => G24 | G14 => G4 | G15 => G23 | G16 => G3 | G17 => G16 | G18 => G12 | G19 => G31 | G20 => G29 | G21 => G14 | G22 => G18 | G23 => G1 | G24 => G22 | G25 => G5 | G26 => G25 | G27 => G10 | G28 => G8 | G29 => G27 | G30 => G7 | G31 => G20 end
  | G20 => match y with G0 => G0 | G1 => G20 | G2 => G1 | G3 => G21 | G4 => G2 | G5 => G22 | G6 => G3 | G7 => G23 | G8 => G4 | G9 => G16 | G10 => G5 | G11 => G17 | G12 => G6 | G13 => G18 | G14 => G7 | G15 => G19 | G16 => G8 | G17 => G28 | G18 => G9 | G19 => G29 | G20 => G10 | G21 => G30 | G22 => G11 | G23 => G31 | G24 => G12 | G25 => G24 | G26 => G13 | G27 => G25 | G28 => G14 | G29 => G26 | G30 => G15 | G31 => G27 end
  | G21 => match y with G0 => G0 | G1 => G21 | G2 => G3 | G3 => G22 | G4 => G6 | G5 => G19 | G6 => G5 | G7 => G16 | G8 => G12 | G9 => G25 | G10 => G15 | G11 => G26 | G12 => G10 | G13 => G31 | G14 => G9 | G15 => G28 | G16 => G24 | G17 => G13 | G18 => G27 | G19 => G14 | G20 => G30 | G21 => G11 | G22 => G29 | G23 => G8 | G24 => G20 | G25 => G1 | G26 => G23 | G27 => G2 | G28 => G18 | G29 => G7 | G30 => G17 | G31 => G4 end
  | G22 => match y with G0 => G0 | G1 => G22 | G2 => G5 | G3 => G19 | G4 => G10 | G5 => G28 | G6 => G15 | G7 => G25 | G8 => G20 | G9 => G2 | G10 => G17 | G11 => G7 | G12 => G30 | G13 => G8 | G14 => G27 | G15 => G13 | G16 => G1 | G17 => G23 | G18 => G4 | G19 => G18 | G20 => G11 | G21 => G29 | G22 => G14 | G23 => G24 | G24 => G21 | G25 => G3 | G26 => G16 | G27 => G6 | G28 => G31 | G29 => G9 | G30 => G26 | G31 => G12 end
  | G23 => match y with G0 => G0 | G1 => G23 | G2 => G7 | G3 => G16 | G4 => G14 | G5 => G25 | G6 => G9 | G7 => G30 | G8 => G28 | G9 => G11 | G10 => G27 | G11 => G12 | G12 => G18 | G13 => G5 | G14 => G21 | G15 => G2 | G16 => G17 | G17 => G6 | G18 => G22 | G19 => G1 | G20 => G31 | G21 => G8 | G22 => G24 | G23 => G15 | G24 => G13 | G25 => G26 | G26 => G10 | G27 => G29 | G28 => G3 | G29 => G20 | G30 => G4 | G31 => G19 end
  | G24 => match y with G0 => G0 | G1 => G24 | G2 => G25 | G3 => G1 | G4 => G27 | G5 => G3 | G6 => G2 | G7 => G26 | G8 => G31 | G9 => G7 | G10 => G6 | G11 => G30 | G12 => G4 | G13 => G28 | G14 => G29 | G15 => G5 | G16 => G23 | G17 => G15 | G18 => G14 | G19 => G22 | G20 => G12 | G21 => G20 | G22 => G21 | G23 => G13 | G24 => G8 | G25 => G16 | G26 => G17 | G27 => G9 | G28 => G19 | G29 => G11 | G30 => G10 | G31 => G18 end
  | G25 => match y with G0 => G0 | G1 => G25 | G2 => G27 | G3 => G2 | G4 => G31 | G5 => G6 | G6 => G4 | G7 => G29 | G8 => G23 | G9 => G14 | G10 => G12 | G11 => G21 | G12 => G8 | G13 => G17 | G14 => G19 | G15 => G10 | G16 => G7 | G17 => G30 | G18 => G28 | G19 => G5 | G20 => G24 | G21 => G1 | G22 => G3 | G23 => G26 | G24 => G16 | G25 => G9 | G26 => G11 | G27 => G18 | G28 => G15 | G29 => G22 | G30 => G20 | G31 => G13 end
  | G26 => match y with G0 => G0 | G1 => G26 | G2 => G29 | G3 => G7 | G4 => G19 | G5 => G9 | G6 => G14 | G7 => G20 | G8 => G15 | G9 => G21 | G10 => G18 | G11 => G8 | G12 => G28 | G13 => G6 | G14 => G1 | G15 => G27 | G16 => G30 | G17 => G4 | G18 => G3 | G19 => G25 | G20 => G13 | G21 => G23 | G22 => G16 | G23 => G10 | G24 => G17 | G25 => G11 | G26 => G12 | G27 => G22 | G28 => G2 | G29 => G24 | G30 => G31 | G31 => G5 end
  | G27 => match y with G0 => G0 | G1 => G27 | G2 => G31 | G3 => G4 | G4 => G23 | G5 => G12 | G6 => G8 | G7 => G19 | G8 => G7 | G9 => G28 | G10 => G24 | G11 => G3 | G12 => G16 | G13 => G11 | G14 => G15 | G15 => G20 | G16 => G14 | G17 => G21 | G18 => G17 | G19 => G10 | G20 => G25 | G21 => G2 | G22 => G6 | G23 => G29 | G24 => G9 | G25 => G18 | G26 => G22 | G27 => G13 | G28 => G30 | G29 => G5 | G30 => G1 | G31 => G26 end
  | G28 => match y with G0 => G0 | G1 => G28 | G2 => G17 | G3 => G13 | G4 => G11 | G5 => G23 | G6 => G26 | G7 => G6 | G8 => G22 | G9 => G10 | G10 => G7 | G11 => G27 | G12 => G29 | G13 => G1 | G14 => G12 | G15 => G16 | G16 => G5 | G17 => G25 | G18 => G20 | G19 => G8 | G20 => G14 | G21 => G18 | G22 => G31 | G23 => G3 | G24 => G19 | G25 => G15 | G26 => G2 | G27 => G30 | G28 => G24 | G29 => G4 | G30 => G9 | G31 => G21 end
  | G29 => match y with G0 => G0 | G1 => G29 | G2 => G19 | G3 => G14 | G4 => G15 | G5 => G18 | G6 => G28 | G7 => G1 | G8 => G30 | G9 => G3 | G10 => G13 | G11 => G16 | G12 => G17 | G13 => G12 | G14 => G2 | G15 => G31 | G16 => G21 | G17 => G8 | G18 => G6 | G19 => G27 | G20 => G26 | G21 => G7 | G22 => G9 | G23 => G20 | G24 => G11 | G25 => G22 | G26 => G24 | G27 => G5 | G28 => G4 | G29 => G25 | G30 => G23 | G31 => G10 end
  | G30 => match y with G0 => G0 | G1 => G30 | G2 => G21 | G3 => G11 | G4 => G3 | G5 => G29 | G6 => G22 | G7 => G8 | G8 => G6 | G9 => G24 | G10 => G19 | G11 => G13 | G12 => G5 | G13 => G27 | G14 => G16 | G15 => G14 | G16 => G12 | G17 => G18 | G18 => G25 | G19 => G7 | G20 => G15 | G21 => G17 | G22 => G26 | G23 => G4 | G24 => G10 | G25 => G20 | G26 => G31 | G27 => G1 | G28 => G9 | G29 => G23 | G30 => G28 | G31 => G2 end
  | G31 => match y with G0 => G0 | G1 => G31 | G2 => G23 | G3 => G8 | G4 => G7 | G5 => G24 | G6 => G16 | G7 => G15 | G8 => G14 | G9 => G17 | G10 => G25 | G11 => G6 | G12 => G9 | G13 => G22 | G14 => G30 | G15 => G1 | G16 => G28 | G17 => G3 | G18 => G11 | G19 => G20 | G20 => G27 | G21 => G4 | G22 => G12 | G23 => G19 | G24 => G18 | G25 => G13 | G26 => G5 | G27 => G26 | G28 => G21 | G29 => G10 | G30 => G2 | G31 => G29 end
  end.

Definition geqb (x y : gf) : bool := gz x =? gz y.
Lemma gz_range x : 0 <= gz x < 32.
Proof. destruct x; cbn; lia. Qed.
Lemma zg_gz x : zg (gz x) = x.
Proof. destruct x; reflexivity. Qed.
Lemma gz_zg v : 0 <= v < 32 -> gz (zg v) = v.
Proof.
  intros H. assert (C : forallb (fun v => gz (zg v) =? v) (range 32) = true) by (vm_compute; reflexivity).
  pose proof (forall_range _ 32 C v H) as C'. cbv beta in C'. lia.
Qed.
Lemma geqb_eq x y : geqb x y = true <-> x = y.
Proof. unfold geqb. rewrite Z.eqb_eq. split; [|congruence]. intros H. rewrite <- (zg_gz x), <- (zg_gz y), H. reflexivity. Qed.
Lemma gf_dec (x y : gf) : {x = y} + {x <> y}.
Proof. destruct (geqb x y) eqn:E; [left; apply geqb_eq, E|right; intros ->; rewrite (proj2 (geqb_eq y y) eq_refl) in E; discriminate]. Qed.
Lemma all_gf_in x : In x all_gf.
Proof. rewrite <- (zg_gz x). unfold zg. apply nth_In. pose proof (gz_range x). change (length all_gf) with 32%nat. lia. Qed.
Lemma forall_gf (P : gf -> bool) : forallb P all_gf = true -> forall x, P x = true.
Proof. intros H x. rewrite forallb_forall in H. apply H, all_gf_in. Qed.
Lemma forall_gf2 (P : gf -> gf -> bool) : forallb (fun x => forallb (P x) all_gf) all_gf = true -> forall x y, P x y = true.
Proof. intros H x y. pose proof (forall_gf _ H x) as H1. cbv beta in H1. exact (forall_gf _ H1 y). Qed.
Lemma forall_gf3 (P : gf -> gf -> gf -> bool) :
  forallb (fun x => forallb (fun y => forallb (P x y) all_gf) all_gf) all_gf = true -> forall x y z, P x y z = true.
Proof. intros H x y z. pose proof (forall_gf2 _ H x y) as H1. cbv beta in H1. exact (forall_gf _ H1 z). Qed.

Lemma gadd_comm x y : gadd x y = gadd y x.
Proof. apply geqb_eq. revert x y. apply forall_gf2. vm_compute. reflexivity. Qed.
Lemma gadd_assoc x y z : gadd x (gadd y z) = gadd (gadd x y) z.
Proof. apply geqb_eq. revert x y z. apply forall_gf3. vm_compute. reflexivity. Qed.
Lemma gadd_0 x : gadd G0 x = x.
Proof. reflexivity. Qed.
Lemma gadd_self x : gadd x x = G0.
Proof. destruct x; reflexivity. Qed.
Lemma gmul_comm x y : gmul x y = gmul y x.
Proof. apply geqb_eq. revert x y. apply forall_gf2. vm_compute. reflexivity. Qed.
Lemma gmul_assoc x y z : gmul x (gmul y z) = gmul (gmul x y) z.
Proof. apply geqb_eq. revert x y z. apply forall_gf3. vm_compute. reflexivity. Qed.
Lemma gmul_1 x : gmul G1 x = x.
Proof. destruct x; reflexivity. Qed.
Lemma gmul_distr x y z : gmul (gadd x y) z = gadd (gmul x z) (gmul y z).
Proof. apply geqb_eq. revert x y z. apply forall_gf3. vm_compute. reflexivity. Qed.
Lemma gmul_zero x y : gmul x y = G0 -> x = G0 \/ y = G0.
Proof.
  assert (C : forall x y, (negb (geqb (gmul x y) G0) || geqb x G0 || geqb y G0) = true) by (apply forall_gf2; vm_compute; reflexivity).
  intros H. specialize (C x y). rewrite H in C. change (negb (geqb G0 G0)) with false in C. cbn [orb] in C.
  apply orb_true_iff in C. rewrite !geqb_eq in C. exact C.
Qed.
Lemma gz_gadd x y : gz (gadd x y) = Z.lxor (gz x) (gz y).
Proof. apply Z.eqb_eq. revert x y. apply forall_gf2. vm_compute. reflexivity. Qed.
Lemma zg_lxor a b : 0 <= a < 32 -> 0 <= b < 32 -> zg (Z.lxor a b) = gadd (zg a) (zg b).
Proof. intros Ha Hb. rewrite <- (zg_gz (gadd _ _)), gz_gadd, !gz_zg by assumption. reflexivity. Qed.

Definition gsub (x y : gf) : gf := gadd x y.
Definition gopp (x : gf) : gf := x.
Lemma gf_ring : ring_theory G0 G1 gadd gmul gsub gopp eq.
Proof.
  constructor; [exact gadd_0|exact gadd_comm|exact gadd_assoc|exact gmul_1|exact gmul_comm|exact gmul_assoc|exact gmul_distr|reflexivity|exact gadd_self].
Qed.
Add Ring gf_ring_tactic : gf_ring.

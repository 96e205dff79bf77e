(** Specification of stealth payments (DarkWallet/Stealth): with ephemeral key e,
    scan key s and spend key b, the paid key is b + H(e*s*G). *)
From Verif Require Import Base Bytes BitStreamSpec EcModel OpModel PatternModel PatternProps.

Section Spec.
Variable c : curve.
Variable sha256 hash : list Z -> list Z.

(** The shared secret, as a number. *)
Definition shared (e s : Z) : Z := be_value (sha256 (mulG c ((e * s) mod order))).
(** The secret of the paid key. *)
Definition stealth_key (e s b : Z) : Z := (b + shared e s) mod order.
(** A script is of the stealth form for a key: an output script that a null data
    template recognizes, whose data begin with the 32 byte x coordinate. *)
Definition stealth_form (s : script) (key_x after : list Z) : Prop :=
  output_pattern s = pay_null_data /\ script_to_data false s = 106 :: push_form (key_x ++ after).
(** The first bits of the hash of a script. *)
Definition prefix_bits (s : script) (n : Z) : list bool := bit_slice (firstn 4 (hash (script_to_data false s))) 0 n.
End Spec.

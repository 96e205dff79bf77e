(** AEAD_CHACHA20_POLY1305 (RFC 8439 section 2.8) and the forward-secure ciphers of
    BIP 324.  Independent of the model. *)
From Verif Require Import Base Bytes ShaSpec KdfSpec PolySpec ChachaSpec.

Definition pad16 (x : list Z) : list Z := repeat 0 ((16 - length x mod 16) mod 16).
Definition poly_key (key nonce : list Z) : list Z := firstn 32 (chacha_block key nonce 0).
Definition aead_tag (key nonce aad ciphertext : list Z) : list Z :=
  Poly1305 (poly_key key nonce)
    (aad ++ pad16 aad ++ ciphertext ++ pad16 ciphertext ++ le_bytes 8 (len aad) ++ le_bytes 8 (len ciphertext)).
Definition apply_stream (key nonce text : list Z) : list Z := xor_bytes text (keystream key nonce 1 0 (length text)).
Definition aead_encrypt (key nonce aad plaintext : list Z) : list Z :=
  let ciphertext := apply_stream key nonce plaintext in ciphertext ++ aead_tag key nonce aad ciphertext.
Definition aead_decrypt (key nonce aad cipher : list Z) : option (list Z) :=
  let n := (length cipher - 16)%nat in
  let text := firstn n cipher in
  if list_eq_dec Z.eq_dec (aead_tag key nonce aad text) (skipn n cipher) then Some (apply_stream key nonce text) else None.

(** BIP 324 FSChaCha20Poly1305: message [n] under the key of epoch n/interval. *)
Definition message_nonce (interval n : nat) : list Z := le_bytes 4 (Z.of_nat (n mod interval)) ++ le_bytes 8 (Z.of_nat (n / interval)).
Definition rekey_nonce (epoch : nat) : list Z := [255; 255; 255; 255] ++ le_bytes 8 (Z.of_nat epoch).
Fixpoint epoch_key (initial : list Z) (epoch : nat) : list Z :=
  match epoch with
  | O => initial
  | S e => firstn 32 (aead_encrypt (epoch_key initial e) (rekey_nonce e) [] (repeat 0 32))
  end.
Definition fs_encrypt (initial : list Z) (interval n : nat) (aad plaintext : list Z) : list Z :=
  aead_encrypt (epoch_key initial (n / interval)) (message_nonce interval n) aad plaintext.
Definition fs_decrypt (initial : list Z) (interval n : nat) (aad cipher : list Z) : option (list Z) :=
  aead_decrypt (epoch_key initial (n / interval)) (message_nonce interval n) aad cipher.

(** BIP 324 FSChaCha20: chunk [n], [pos] bytes of the epoch's key stream used. *)
Definition chunk_nonce (epoch : nat) : list Z := [0; 0; 0; 0] ++ le_bytes 8 (Z.of_nat epoch).
Fixpoint fs_crypt (interval : nat) (key : list Z) (n pos : nat) (chunks : list (list Z)) : list (list Z) :=
  match chunks with
  | [] => []
  | chunk :: rest =>
    let nonce := chunk_nonce (n / interval) in
    xor_bytes chunk (keystream key nonce 0 pos (length chunk)) ::
    (if Nat.eqb (S n mod interval) 0
     then fs_crypt interval (keystream key nonce 0 (pos + length chunk) 32) (S n) 0 rest
     else fs_crypt interval key (S n) (pos + length chunk) rest)
  end.

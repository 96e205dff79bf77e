(** Model of src/crypto/ring_signature.cpp: Borromean ring signatures, over the
    curve of EcModel.v, the scalar and point objects of WifModel.v and a SHA-256
    function.  Reading or writing outside a vector (guarded only by BC_ASSERT) is
    the outcome [None]; [Some None] is a false return.  The index j is a uint32_t:
    rings of 2^32 keys or more are not modelled. *)
From Verif Require Import Base Bytes AddressModel HdModel EcModel WifModel.

Section Ring.
Variable c : curve.
Variable sha256 : list Z -> list Z.

(** 36-50 borromean_hash: an ec_scalar of the hash *)
Definition borromean_hash (M R : list Z) (i j : nat) : list Z := sha256 (R ++ M ++ be_bytes 4 (Z.of_nat i) ++ be_bytes 4 (Z.of_nat j)).

(** std::map find *)
Definition lookup (map : list (list Z * list Z)) (key : list Z) : option (list Z) :=
  match find (fun kv => list_eqb (fst kv) key) map with Some kv => Some (snd kv) | None => None end.
(** 52-66 generate_keys_map: insert keeps the first *)
Fixpoint generate_keys_map (out : list (list Z * list Z)) (secrets : list (list Z)) : option (list (list Z * list Z)) :=
  match secrets with
  | [] => Some out
  | s :: r => match secret_to_public c s with
              | None => None
              | Some k => generate_keys_map (match lookup out k with Some _ => out | None => out ++ [(k, s)] end) r
              end
  end.
(** 68-82 known_keys_in_ring *)
Definition known_keys_in_ring (map : list (list Z * list Z)) (ring : list (list Z)) : list (list Z) :=
  filter (fun key => match lookup map key with Some _ => true | None => false end) ring.
(** std::find, as an index *)
Fixpoint index_of (key : list Z) (ring : list (list Z)) : option nat :=
  match ring with
  | [] => None
  | k :: r => if list_eqb k key then Some O else match index_of key r with Some n => Some (S n) | None => None end
  end.
(** 84-138 partition_keys_into_rings, create_key_indexes, generate_known_indexes *)
Fixpoint generate_known_indexes (map : list (list Z * list Z)) (rings : list (list (list Z))) : option (list nat) :=
  match rings with
  | [] => Some []
  | ring :: rest =>
      match known_keys_in_ring map ring with
      | [] => None
      | known => match index_of (last known []) ring, generate_known_indexes map rest with
                 | Some n, Some l => Some (n :: l)
                 | _, _ => None
                 end
      end
  end.
(** ec_point::generator *)
Definition generator : list Z := mulG c 1.
(** 140-144 calculate_R *)
Definition calculate_R (s e P : list Z) : list Z := ec_point_add c (ec_point_mul c generator s) (ec_point_mul c P e).

(** 146-175 calculate_last_R_signing: [keys] is the ring from j on *)
Fixpoint last_R_loop (digest : list Z) (proofs : list (list Z)) (i j : nat) (keys : list (list Z)) (R : list Z) : option (list Z) :=
  match keys with
  | [] => Some R
  | P :: r =>
      do s <- nth_error proofs j;
      if negb (scalar_bool s) then Some point_null
      else let e := borromean_hash digest R i j in
           if negb (scalar_bool e) then Some point_null
           else let R := calculate_R s e P in
                if negb (point_bool R) then Some point_null
                else last_R_loop digest proofs i (S j) r R
  end.
Definition calculate_last_R_signing (ring : list (list Z)) (i : nat) (digest : list Z) (proofs : list (list (list Z))) (known : nat) (salts : list (list Z)) : option (list Z) :=
  do k <- nth_error salts i;
  let R := ec_point_mul c generator k in
  if negb (point_bool R) then Some point_null
  else match nth_error proofs i with
       | Some p => last_R_loop digest p i (S known) (skipn (S known) ring) R
       | None => match skipn (S known) ring with [] => Some R | _ => None end
       end.
(** 177-210 calculate_e0: the bytes written to the hash *)
Fixpoint e0_loop (digest : list Z) (proofs : list (list (list Z))) (salts : list (list Z)) (i : nat) (rings : list (list (list Z))) (known : list nat) (written : list Z) : option (option (list Z)) :=
  match rings with
  | [] => Some (Some written)
  | ring :: rest =>
      match known with
      | [] => None
      | k :: known' =>
          do R <- calculate_last_R_signing ring i digest proofs k salts;
          if negb (point_bool R) then Some None
          else e0_loop digest proofs salts (S i) rest known' (written ++ R)
      end
  end.
(** 212-237 calculate_e_at_known_key_index: [keys] are those before the known one *)
Fixpoint e_at_loop (digest : list Z) (proofs : list (list Z)) (i j : nat) (keys : list (list Z)) (e : list Z) : option (option (list Z)) :=
  match keys with
  | [] => Some (Some e)
  | P :: r =>
      do s <- nth_error proofs j;
      if negb (scalar_bool s) then Some None
      else let R := calculate_R s e P in
           if negb (point_bool R) then Some None
           else let e := borromean_hash digest R i (S j) in
                if negb (scalar_bool e) then Some None
                else e_at_loop digest proofs i (S j) r e
  end.
(** vector element assignment *)
Fixpoint assign {A} (l : list A) (n : nat) (x : A) : option (list A) :=
  match l, n with
  | [], _ => None
  | _ :: r, O => Some (x :: r)
  | y :: r, S n' => match assign r n' x with Some r' => Some (y :: r') | None => None end
  end.
(** 239-281 join_rings *)
Fixpoint join_loop (digest challenge : list Z) (map : list (list Z * list Z)) (salts : list (list Z)) (i : nat) (rings : list (list (list Z))) (known : list nat)
  (proofs : list (list (list Z))) : option (option (list (list (list Z)))) :=
  match rings with
  | [] => Some (Some proofs)
  | ring :: rest =>
      match known with
      | [] => None
      | k :: known' =>
          let e := borromean_hash digest challenge i 0 in
          if negb (scalar_bool e) then Some None
          else
            do p <- nth_error proofs i;
            do e <- e_at_loop digest p i 0 (firstn k ring) e;
            match e with
            | None => Some None
            | Some e =>
                do P <- nth_error ring k;
                let x := or_null (lookup map P) in
                do salt <- nth_error salts i;
                let s := scalar_sub salt (scalar_mul e x) in
                if negb (scalar_bool s) then Some None
                else
                  do p' <- assign p k s;
                  do proofs' <- assign proofs i p';
                  join_loop digest challenge map salts (S i) rest known' proofs'
            end
      end
  end.
(** ring_signature.hpp:44-50 *)
Record ring_sig := mkring { challenge : list Z; proofs : list (list (list Z)) }.
(** 326-354 sign: [out] is the caller's signature object, with its proofs *)
Definition ring_sign (out : ring_sig) (secrets : list (list Z)) (rings : list (list (list Z))) (digest : list Z) (salts : list (list Z)) : option (option ring_sig) :=
  if len rings >=? 2 ^ 32 - 1 then Some None
  else match generate_keys_map [] secrets with
       | None => Some None
       | Some map =>
           match generate_known_indexes map rings with
           | None => Some None
           | Some known =>
               do written <- e0_loop digest (proofs out) salts 0 rings known [];
               match written with
               | None => Some None
               | Some w =>
                   let e0 := sha256 (w ++ digest) in
                   do p <- join_loop digest e0 map salts 0 rings known (proofs out);
                   match p with None => Some None | Some p => Some (Some (mkring e0 p)) end
               end
           end
       end.

(** 283-310 calculate_last_R_verify *)
Fixpoint verify_ring_loop (digest : list Z) (proofs : list (list Z)) (i j : nat) (keys : list (list Z)) (e R : list Z) : option (list Z) :=
  match keys with
  | [] => Some R
  | P :: r =>
      do s <- nth_error proofs j;
      if negb (scalar_bool s) || negb (scalar_bool e) then Some point_null
      else let R := calculate_R s e P in
           if negb (point_bool R) then Some point_null
           else let e := borromean_hash digest R i (S j) in
                if negb (scalar_bool e) then Some point_null
                else verify_ring_loop digest proofs i (S j) r e R
  end.
Fixpoint verify_loop (digest e0 : list Z) (i : nat) (rings proofs : list (list (list Z))) (written : list Z) : option (option (list Z)) :=
  match rings, proofs with
  | [], _ => Some (Some written)
  | ring :: rest, p :: proofs' =>
      let e := borromean_hash digest e0 i 0 in
      if negb (scalar_bool e) then Some None
      else do R <- verify_ring_loop digest p i 0 ring e point_null;
           if negb (point_bool R) then Some None
           else verify_loop digest e0 (S i) rest proofs' (written ++ R)
  | _ :: _, [] => None
  end.
(** 361-401 verify *)
Definition ring_verify (rings : list (list (list Z))) (digest : list Z) (s : ring_sig) : option bool :=
  if (len rings >=? 2 ^ 32 - 1) || negb (len (proofs s) =? len rings) then Some false
  else do written <- verify_loop digest (challenge s) 0 rings (proofs s) [];
       match written with
       | None => Some false
       | Some w => Some (list_eqb (sha256 (w ++ digest)) (challenge s))
       end.
(** 314-324 digest *)
Definition ring_digest (message : list Z) (rings : list (list (list Z))) : list Z := sha256 (message ++ concat (map (@concat Z) rings)).
End Ring.

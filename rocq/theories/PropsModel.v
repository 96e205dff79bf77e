(** Model of include/bitcoin/system/serial/props.hpp and src/serial/props.cpp:
    trees of properties written as JSON. The other two formats (info, xml) are not
    modelled. *)
From Coq Require Import String.
From Verif Require Import Base Bytes RadixModel TextSpec TextModel.

(** props.hpp:89-112 type_, value_, children_ by type; an array keeps in value_ the
    name given to its elements. *)
Inductive props :=
| Pnull | Ptrue | Pfalse
| Pstring (value : list Z)
| Pnumber (value : list Z)
| Parray (value : list Z) (children : list (list Z * props))
| Pobject (children : list (list Z * props))
| Pinvalid.
(** serialize.ipp: serialize(int64_t), by a stream *)
Definition serialize_int (n : Z) : list Z := if n <? 0 then 45 :: serialize_decimal (- n) else serialize_decimal n.
(** props.cpp:64-76 from_number: -add1(power), sub1(power) *)
Definition from_number (number : Z) : props :=
  let power := 2 ^ 53 in
  if (number <=? - (power + 1)) || (number >=? power - 1) then Pinvalid else Pnumber (serialize_int number).
(** props.cpp:38-60 the constructors *)
Definition props_bool (b : bool) : props := if b then Ptrue else Pfalse.
Definition props_string (t : list Z) : props := Pstring t.
Definition array_props (name : list Z) : props := Parray name [].
Definition object_props : props := Pobject [].
(** array_props::add, object_props::add (one value, and a list in order) *)
Definition array_add (a : props) (v : props) : props := match a with Parray n cs => Parray n (cs ++ [(n, v)]) | _ => a end.
Definition object_add (o : props) (v : list Z * props) : props := match o with Pobject cs => Pobject (cs ++ [v]) | _ => o end.
Definition array_add_all (a : props) (vs : list props) : props := fold_left array_add vs a.
Definition object_add_all (o : props) (vs : list (list Z * props)) : props := fold_left object_add vs o.

(** props.cpp:95-96, 146-147: end, and start, which at depth 0 is empty *)
Definition end_of (flat : bool) (depth : nat) : list Z := if flat then [] else 10 :: repeat 32 (depth * 4).
Definition start_of (flat : bool) (depth : nat) : list Z := if flat then [] else match depth with O => [] | _ => end_of flat depth end.
(** 99-102 is_simple *)
Definition is_simple (p : props) : bool := match p with Parray _ _ | Pobject _ => false | _ => true end.
(** 141-330 write (format::json): what is written to the stream; None = the stream
    has failed. [write_json] at a depth. 104-109: named, then the value (a simple one
    at depth 0). Children are at add1(depth), separated by commas. *)
Fixpoint write_json (flat : bool) (depth : nat) (p : props) {struct p} : option (list Z) :=
  match p with
  | Pnull => Some (start_of flat depth ++ chars "null")
  | Ptrue => Some (start_of flat depth ++ chars "true")
  | Pfalse => Some (start_of flat depth ++ chars "false")
  | Pstring v => Some (start_of flat depth ++ 34 :: v ++ [34])
  | Pnumber v => Some (start_of flat depth ++ v)
  | Parray _ children =>
      let fix items (cs : list (list Z * props)) : option (list Z) :=
        match cs with
        | [] => Some []
        | (_, c) :: r =>
            match r with
            | [] => write_json flat (S depth) c
            | _ => do a <- write_json flat (S depth) c; do b <- items r; Some (a ++ 44 :: b)
            end
        end in
      do t <- items children; Some (start_of flat depth ++ 91 :: t ++ end_of flat depth ++ [93])
  | Pobject children =>
      let fix members (cs : list (list Z * props)) : option (list Z) :=
        let member (name : list Z) (c : props) :=
          do t <- write_json flat (if is_simple c then O else S depth) c;
          Some (start_of flat (S depth) ++ 34 :: name ++ 34 :: 58 :: t) in
        match cs with
        | [] => Some []
        | (name, c) :: r =>
            match r with
            | [] => member name c
            | _ => do a <- member name c; do b <- members r; Some (a ++ 44 :: b)
            end
        end in
      do t <- members children; Some (start_of flat depth ++ 123 :: t ++ end_of flat depth ++ [125])
  | Pinvalid => None
  end.
(** 78-82 write *)
Definition write (flat : bool) (p : props) : option (list Z) := write_json flat O p.

(** A use of the constructors to make the properties of a JSON value; [name] is the
    name given to each array. *)
From Verif Require Import VerSpec PropsSpec.
Fixpoint build (name : list json -> list Z) (v : json) : props :=
  match v with
  | Jnull => Pnull
  | Jbool b => props_bool b
  | Jstring s => props_string s
  | Jnumber n => from_number n
  | Jarray vs => array_add_all (array_props (name vs)) (map (build name) vs)
  | Jobject ms => object_add_all object_props (map (fun m => (fst m, build name (snd m))) ms)
  end.

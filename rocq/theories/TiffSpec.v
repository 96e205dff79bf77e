(** Specification: a reader of baseline TIFF 6.0 files, big-endian ("MM"). *)
From Verif Require Import Base Bytes.

(** The unsigned number in n bytes at an offset of the file. *)
Definition number_at (file : list Z) (n : nat) (offset : Z) : Z := be_value (firstn n (skipn (Z.to_nat offset) file)).
(** The first directory: its offset is in the header. *)
Definition directory (file : list Z) : Z := number_at file 4 4.
Definition fields_of (file : list Z) : Z := number_at file 2 (directory file).
(** Entry k of the directory: tag, type, count, and where its value is. *)
Definition entry (file : list Z) (k : Z) : Z := directory file + 2 + 12 * k.
Definition tag (file : list Z) (k : Z) : Z := number_at file 2 (entry file k).
(** The value of a field: one SHORT (3), LONG (4) in the entry, or a RATIONAL (5)
    (numerator, denominator) at the offset in the entry. *)
Definition short_field (file : list Z) (t v : Z) : Prop :=
  exists k, 0 <= k < fields_of file /\ tag file k = t /\ number_at file 2 (entry file k + 2) = 3 /\ number_at file 4 (entry file k + 4) = 1 /\ number_at file 2 (entry file k + 8) = v.
Definition long_field (file : list Z) (t v : Z) : Prop :=
  exists k, 0 <= k < fields_of file /\ tag file k = t /\ number_at file 2 (entry file k + 2) = 4 /\ number_at file 4 (entry file k + 4) = 1 /\ number_at file 4 (entry file k + 8) = v.
Definition ratio_field (file : list Z) (t a b : Z) : Prop :=
  exists k, 0 <= k < fields_of file /\ tag file k = t /\ number_at file 2 (entry file k + 2) = 5 /\ number_at file 4 (entry file k + 4) = 1 /\
    let at_ := number_at file 4 (entry file k + 8) in at_ mod 2 = 0 /\ number_at file 4 at_ = a /\ number_at file 4 (at_ + 4) = b.
(** A bilevel image (0 is white) of width by height pixels, each row in whole
    bytes, uncompressed, in one strip; 72 pixels per unit of the resolution
    (ResolutionUnit: 1 is no absolute unit, 2 is the inch, 3 the centimeter). *)
Definition no_unit := 1.
Definition inch := 2.
Definition bilevel_file (file data : list Z) (width height unit : Z) : Prop :=
  firstn 2 file = [77; 77] /\ number_at file 2 2 = 42 /\ directory file mod 2 = 0 /\
  (forall j k, 0 <= j < k -> k < fields_of file -> tag file j < tag file k) /\
  number_at file 4 (entry file (fields_of file)) = 0 /\
  long_field file 256 width /\ long_field file 257 height /\ short_field file 259 1 /\ short_field file 262 0 /\
  long_field file 278 height /\ long_field file 279 (len data) /\ len data = height * ((width + 7) / 8) /\
  ratio_field file 282 72 1 /\ ratio_field file 283 72 1 /\ short_field file 296 unit /\
  exists offset, long_field file 273 offset /\ firstn (length data) (skipn (Z.to_nat offset) file) = data.

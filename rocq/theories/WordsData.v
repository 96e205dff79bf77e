(** The dictionaries of src/words/catalogs/mnemonic.cpp, and what their data
    satisfy (checked by computation on the words themselves). *)
From Coq Require Import String.
From Verif Require Import Base Bytes WordsModel WordsProofs
  WordsEn WordsEs WordsIt WordsFr WordsCs WordsPt WordsJa WordsKo WordsZhHans WordsZhHant.

(** src/wallet/mnemonics/mnemonic.cpp:46-61 and src/radix/base_2048.cpp:38-54:
    the same ten dictionaries in the same order; the sorted flags are those of
    src/words/catalogs/mnemonic.cpp:31, 2086, 4141, 6196, 8251, 10306, 12361, 14416, 16471, 18526 *)
Definition dictionaries : list dictionary :=
  [mkdictionary en true words_en; mkdictionary es false words_es; mkdictionary it true words_it; mkdictionary fr false words_fr;
   mkdictionary cs false words_cs; mkdictionary pt true words_pt; mkdictionary ja false words_ja; mkdictionary ko true words_ko;
   mkdictionary zh_Hans false words_zh_Hans; mkdictionary zh_Hant false words_zh_Hant].

(** en and fr share words, none at the same position; the chinese lists share
    words, all at the same position; no other two lists share a word *)
Definition may_share (a : language) (i : Z) (b : language) (j : Z) : bool :=
  match a, b with
  | en, fr => negb (i =? j)
  | zh_Hans, zh_Hant => i =? j
  | _, _ => false
  end.
Definition lists : list (language * list string) := map (fun d => (identifier d, words_of d)) dictionaries.
Lemma lists_checked : match enter_all may_share lists Leaf with Some _ => true | None => false end = true.
Proof. vm_compute. reflexivity. Qed.
Lemma lists_sorted : forallb (fun d => negb (is_sorted d) || sorted (words_of d)) dictionaries = true.
Proof. vm_compute. reflexivity. Qed.
Lemma lists_length : forallb (fun d => len (words_of d) =? 2048) dictionaries = true.
Proof. vm_compute. reflexivity. Qed.

Lemma checked_trie : exists t, enter_all may_share lists Leaf = Some t.
Proof. pose proof lists_checked as H. destruct (enter_all may_share lists Leaf) as [t|]; [exists t; reflexivity|discriminate]. Qed.
Lemma nth_lists k d : nth_error dictionaries k = Some d -> nth_error lists k = Some (identifier d, words_of d).
Proof. intros H. unfold lists. rewrite nth_error_map, H. reflexivity. Qed.
Lemma data_nodup d : In d dictionaries -> NoDup (words_of d).
Proof.
  intros I. apply In_nth_error in I. destruct I as [k Ek]. destruct checked_trie as [t Et]. destruct (enter_all_ok _ _ _ _ Et) as [_ H].
  apply NoDup_nth_error. intros i j Hi Eij.
  destruct (Nat.lt_trichotomy i j) as [L|[L|L]]; [exfalso|exact L|exfalso].
  - destruct (nth_error (words_of d) i) as [w|] eqn:Ei; [|apply nth_error_Some in Hi; contradiction].
    destruct (H k _ _ (nth_lists k d Ek) j w (eq_sym Eij)) as (_ & Q & _). specialize (Q i L Ei). destruct (identifier d); discriminate Q.
  - destruct (nth_error (words_of d) i) as [w|] eqn:Ei; [|apply nth_error_Some in Hi; contradiction].
    destruct (H k _ _ (nth_lists k d Ek) i w Ei) as (_ & Q & _). specialize (Q j L (eq_sym Eij)). destruct (identifier d); discriminate Q.
Qed.
Lemma data_sorted d : In d dictionaries -> is_sorted d = true -> sorted (words_of d) = true.
Proof.
  intros I S. pose proof lists_sorted as H. rewrite forallb_forall in H. specialize (H d I). rewrite S in H. exact H.
Qed.
Lemma data_length d : In d dictionaries -> len (words_of d) = 2048.
Proof. intros I. pose proof lists_length as H. rewrite forallb_forall in H. apply Z.eqb_eq. apply (H d I). Qed.
Lemma data_ok d : In d dictionaries -> dictionary_ok d.
Proof. intros I. split; [apply data_nodup; exact I|apply data_sorted; exact I]. Qed.
Lemma data_shared k k' d d' : (k < k')%nat -> nth_error dictionaries k = Some d -> nth_error dictionaries k' = Some d' ->
  forall i j w, nth_error (words_of d) i = Some w -> nth_error (words_of d') j = Some w ->
  (identifier d = en /\ identifier d' = fr /\ i <> j) \/ (identifier d = zh_Hans /\ identifier d' = zh_Hant /\ i = j).
Proof.
  intros L Ek Ek' i j w Ei Ej. destruct checked_trie as [t Et]. destruct (enter_all_ok _ _ _ _ Et) as [_ H].
  destruct (H k' _ _ (nth_lists k' d' Ek') j w Ej) as (_ & _ & Q). specialize (Q k _ _ L (nth_lists k d Ek) i Ei).
  unfold may_share in Q. destruct (identifier d); try discriminate Q; destruct (identifier d'); try discriminate Q; [left|right].
  - apply Bool.negb_true_iff, Z.eqb_neq in Q. repeat split. lia.
  - apply Z.eqb_eq in Q. repeat split. lia.
Qed.
(** The languages are distinct and never [none]. *)
Lemma data_find d : In d dictionaries -> to_dictionary dictionaries (identifier d) = Some d /\ identifier d <> none.
Proof.
  intros I. unfold to_dictionary, dictionaries in *. cbn [In] in I.
  repeat (destruct I as [<-|I]; [split; [reflexivity|discriminate]|]). destruct I.
Qed.
Lemma data_in id d : to_dictionary dictionaries id = Some d -> In d dictionaries /\ identifier d = id.
Proof.
  unfold to_dictionary. intros H. apply find_some in H. destruct H as [I E]. split; [exact I|].
  destruct (identifier d), id; try discriminate E; reflexivity.
Qed.
Global Opaque words_en words_es words_it words_fr words_cs words_pt words_ja words_ko words_zh_Hans words_zh_Hant.

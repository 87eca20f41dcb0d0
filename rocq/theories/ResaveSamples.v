(** Chunks of the sample objects with a section left out or a number changed: what other programs
    may have written. *)
From Coq Require Import ZArith List Bool Lia.
From Verif Require Import Base IoCtx Text MobId RoundTrip TextProofs Misc BinModel Dates Objects FileModel Opened Samples SampleDocs.
Import ListNotations.
Open Scope Z_scope.

(** The chunk of a sample, little endian. *)
Definition chunk_of (o : obj) : bytes :=
  match wbody (sample_out LE) o with Ok b => b | Err _ => [] end.

(** [n] bytes at [p] left out. *)
Definition cut (p n : nat) (b : bytes) : bytes := firstn p b ++ skipn (p + n) b.

(** [x] in the place of the bytes at [p]. *)
Definition put (p : nat) (x b : bytes) : bytes := firstn p b ++ x ++ skipn (p + length x) b.

(** [x] inserted at [p]. *)
Definition ins (p : nat) (x b : bytes) : bytes := firstn p b ++ x ++ skipn p b.

(** Reading without a file: references are not checked. *)
Definition alone : ictx := {| ibo := LE; inobj := None |}.

(** Every object keeps its number. *)
Definition kept_numbers (bo : border) : octx := {| obo := bo; orefs := Some |}.

(** The small document of SampleDocs.v, saved little endian, and the file opened. *)
Definition small_file : bytes := run_ops (fst (save 5 cet LE small_doc)).
Definition in_order_kids (_ : Z) (o : obj) : list Z := nonzero (obj_refs o).

(** The same document with another creator version, with another save time, and with the references
    of every object walked in the opposite order. *)
Definition with_version (d : document) (s : str) : document :=
  {| dc_self := dc_self d; dc_heap := dc_heap d; dc_content := dc_content d; dc_version := s; dc_saved := dc_saved d |}.
Definition with_time (d : document) (u : Z) : document :=
  {| dc_self := dc_self d; dc_heap := dc_heap d; dc_content := dc_content d; dc_version := dc_version d; dc_saved := u |}.
Definition backwards (d : document) : document :=
  {| dc_self := dc_self d; dc_content := dc_content d; dc_version := dc_version d; dc_saved := dc_saved d;
     dc_heap := fun a => match dc_heap d a with
       | Ok nd => Ok {| nd_doc := nd_doc nd; nd_id := nd_id nd; nd_obj := nd_obj nd; nd_kids := rev (nd_kids nd) |}
       | Err e => Err e end |}.

(** A zone one hour ahead until instant 1000000000 and two hours from then on. The local times from
    1000003600 to 1000007199 do not occur; [mktime] takes them for winter time. *)
Definition spring : zone :=
  {| z_off := fun t => if t <? 1000000000 then 3600 else 7200;
     z_mk := fun d => if d <? 1000007200 then d - 3600 else d - 7200 |}.

(** The file a document is saved to, and the file it is saved to after opening that. *)
Definition file_of (z : zone) (bo : border) (d : document) : option bytes :=
  match save 5 z bo d with (o, None) => Some (run_ops o) | (_, Some _) => None end.
Definition file_again (z : zone) (bo : border) (file : option bytes) : option bytes :=
  match file with
  | Some b => match open_table b with Ok t => file_of z bo (opened_doc z t 8 read_kids) | Err _ => None end
  | None => None
  end.


(** ** Long texts and lists *)

Lemma runsigned_enc : forall bo n v rest, 0 <= v < pow256 n -> runsigned bo n (enc bo n v ++ rest) = Ok (v, rest).
Proof.
  intros bo n v rest H. unfold runsigned, bind. rewrite take_app by apply enc_length.
  unfold ret. now rewrite dec_enc, Z.mod_small by lia.
Qed.

Lemma rsigned_enc : forall bo n v rest, 0 <= v < pow256 n -> v < pow256 n / 2 ->
  rsigned bo n (enc bo n v ++ rest) = Ok (v, rest).
Proof.
  intros bo n v rest H H2. unfold rsigned, bind. rewrite take_app by apply enc_length.
  unfold ret. cbv zeta. rewrite dec_enc, Z.mod_small by lia.
  destruct (Z.ltb_spec v (pow256 n / 2)); [reflexivity|lia].
Qed.

(** The letter A, [n] times. *)
Definition letters (n : Z) : str := repeat 65 (Z.to_nat n).

Lemma len_letters : forall n, 0 <= n -> len (letters n) = n.
Proof. intros n H. unfold len, letters. rewrite repeat_length. lia. Qed.

Lemma letters_enc : forall n, utf8_encode (letters n) = Ok (letters n).
Proof.
  intros n. unfold letters. induction (Z.to_nat n) as [|k IH]; [reflexivity|].
  cbn [repeat utf8_encode]. rewrite IH. reflexivity.
Qed.

Lemma letters_dec : forall n, utf8_decode (letters n) = Ok (letters n).
Proof. intros n. unfold utf8_decode. apply utf8_decode_encode; [apply letters_enc|lia]. Qed.

Lemma letters_strip : forall n, strip0 (letters n) = letters n.
Proof.
  intros n. unfold strip0, letters.
  assert (forall k, lstrip0 (repeat 65 k) = repeat 65 k) as L by now intros [|k].
  assert (forall A (x : A) k, rev (repeat x k) = repeat x k) as R.
  { intros A x k. induction k as [|k IH]; [reflexivity|]. cbn [repeat rev]. rewrite IH.
    clear IH. induction k as [|k IH]; [reflexivity|]. cbn [repeat app]. now rewrite IH. }
  rewrite L, R, L, R. reflexivity.
Qed.

Lemma letters_read : forall bo n rest, 0 <= n < 65535 ->
  rstr_enc bo Utf8 (enc bo 2 n ++ letters n ++ rest) = Ok (letters n, rest).
Proof.
  intros bo n rest H. unfold rstr_enc, ru16. unfold bind at 1.
  rewrite runsigned_enc by (change (pow256 2) with 65536; lia).
  replace (65535 <=? n) with false by (symmetry; apply Z.leb_gt; lia). unfold bind.
  rewrite fread_app by (symmetry; apply len_letters; lia). cbn [decode].
  rewrite letters_strip, letters_dec. reflexivity.
Qed.

Lemma letters_write : forall bo n, 0 < n ->
  wstr_enc bo Utf8 (letters n) = wu16 bo (n + 2) +++ wbytes (0 :: 0 :: letters n).
Proof.
  intros bo n H. pose proof (letters_enc n) as E. pose proof (len_letters n ltac:(lia)) as L.
  unfold wstr_enc. destruct (letters n) as [|x l]; [cbn in L; lia|]. cbn [encode]. rewrite E.
  f_equal. f_equal. unfold len in *. cbn [length] in *. lia.
Qed.

(** A format descriptor of [n] letters, as it is stored. *)
Definition long_format (bo : border) (n : Z) : bytes :=
  [69] ++ enc bo 2 42 ++ [71] ++ enc bo 4 n ++ [76] ++ enc bo 4 (n + 2) ++ letters n.

Lemma long_format_read : forall i n rest, 0 <= n < 65536 -> rformat_desc i (long_format (ibo i) n ++ rest) =
  Ok ({| fdsc_vcid_free_column_id := 42; fdsc_format_descriptor := letters n |}, rest).
Proof.
  intros i n rest H. unfold long_format. rewrite <- !app_assoc. unfold rformat_desc.
  unfold bind at 1. change (rtag 69 ([69] ++ ?b)) with (Ok (tt, b)).
  unfold bind at 1, rs16. rewrite rsigned_enc by (change (pow256 2 / 2) with 32768; change (pow256 2) with 65536; lia).
  unfold bind at 1. change (rtag 71 ([71] ++ ?b)) with (Ok (tt, b)).
  unfold bind at 1, rs32. rewrite rsigned_enc by (change (pow256 4 / 2) with 2147483648; change (pow256 4) with 4294967296; lia).
  unfold bind at 1. change (rtag 76 ([76] ++ ?b)) with (Ok (tt, b)).
  unfold bind at 1, rs32. rewrite rsigned_enc by (change (pow256 4 / 2) with 2147483648; change (pow256 4) with 4294967296; lia).
  unfold bind at 1. rewrite fread_app by (symmetry; apply len_letters; lia).
  unfold bind at 1, of_result. rewrite letters_dec. reflexivity.
Qed.

(** [n] fields of an MPEG position, as they are stored. *)
Definition many_fields (bo : border) (n : Z) : bytes :=
  enc bo 2 n ++ enc bo 2 (2 * n) ++ concat (repeat ([1] ++ enc bo 4 0) (Z.to_nat n)).

Lemma many_fields_read : forall i n rest, 0 < n < 32768 ->
  rmpg_fields i (many_fields (ibo i) n ++ rest) = Ok (repeat (1, 0) (Z.to_nat n), rest).
Proof.
  intros i n rest H. unfold many_fields, rmpg_fields. rewrite <- !app_assoc. unfold rs16.
  unfold bind at 1. rewrite rsigned_enc by (change (pow256 2 / 2) with 32768; change (pow256 2) with 65536; lia).
  replace (0 <? n) with true by (symmetry; apply Z.ltb_lt; lia).
  assert (forall b, rmpg_field i (([1] ++ enc (ibo i) 4 0) ++ b) = Ok ((1, 0), b)) as E.
  { intros b. rewrite <- app_assoc. unfold rmpg_field. unfold bind at 1. change (ru8 ([1] ++ ?b)) with (Ok (1, b)).
    unfold bind, ru32. rewrite runsigned_enc by (change (pow256 4) with 4294967296; lia). reflexivity. }
  assert (forall k, rlist k (rmpg_field i) (concat (repeat ([1] ++ enc (ibo i) 4 0) k) ++ rest) = Ok (repeat (1, 0) k, rest)) as L.
  { induction k as [|k IH]; [reflexivity|]. cbn [repeat concat rlist]. rewrite <- (app_assoc ([1] ++ enc (ibo i) 4 0)).
    unfold bind at 1. rewrite E. unfold bind. rewrite IH. reflexivity. }
  unfold bind, rsigned, bind. rewrite take_app by apply enc_length. unfold ret. apply L.
Qed.

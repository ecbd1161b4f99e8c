(** PropRabin.v -- final theorems about rabin (properties C13-C15, C62).

    Vocabulary: SpecGf2.v (polynomials over GF(2)), SpecChunker.v (content-defined chunks),
    HashAPI.v (hash.Hash contract).  [rabin_table p w] models NewTable(p, w); the digest and
    chunker models are in Rabin.v and Chunker.v. *)
From Coq Require Import List NArith Arith Lia Bool.
From Verif Require Import Base HashAPI SpecGf2 Gf2 Rabin SpecChunker Chunker.
Import ListNotations.

(** [prem p a] really is the remainder: the unique r of degree below deg p with a = r + q*p. *)
Theorem C13_prem_is_the_remainder : forall p a r, (1 < p)%N -> (is_rem p a r <-> r = prem p a).
Proof.
  intros p a r H. split; intros E.
  - symmetry. now apply prem_unique.
  - subst. now apply prem_is_rem.
Qed.

(** C13: for every polynomial below 2^64 and every window for which NewTable does not panic, under
    every sequence of Write, Sum and Reset calls the digest is the remainder of the last [w] bytes
    written (of all of them when w = 0). *)
Theorem C13_rabin_contract : forall p w t ops, (p < 2 ^ 64)%N -> rabin_table p w = Some t -> Forall op_bytes ops ->
  run (rabin_impl t) (rabin_new t) ops = ideal_run (rabin_spec p w) [] ops.
Proof. exact rabin_contract_lemma. Qed.

(** NewTable succeeds exactly for polynomials of degree at least 8. *)
Theorem C13_new_table : forall p w, (exists t, rabin_table p w = Some t) <-> (2 ^ 8 <= p)%N.
Proof. exact rabin_table_iff. Qed.

(** rabin.Poly64 (poly.go) with the default window 64 meets the hypotheses; and a history with a
    long write, short writes, a Sum in the middle. *)
Example C13_nonvacuous :
  (0xbfe6b8a5bf378d83 < 2 ^ 64)%N /\ (exists t, rabin_table 0xbfe6b8a5bf378d83 64 = Some t) /\
  Forall op_bytes [Write [1; 2; 3]%N; Sum []; Write [255]%N; Reset; Write [7]%N; Sum [9]%N] /\
  ideal_run (rabin_spec 0x11b 2) [] [Write [1; 2; 3]%N; Sum []; Write [255]%N; Sum [9]%N] =
    [Wrote 3; Summed [0x35; 0]%N; Wrote 1; Summed [9; 0xd2; 0]%N].
Proof.
  split; [reflexivity|]. split.
  - apply rabin_table_iff. vm_compute. discriminate.
  - split; [|vm_compute; reflexivity]. repeat (constructor; simpl; try lia; auto).
Qed.

(** C14: however the reader cuts its data into Reads, and whether or not it implements Discarder,
    the results of any number of Next calls are those of the specification, which mentions only
    the bytes of the stream.  (Readers that return their final error separately from the last
    bytes; see C15 for the others.) *)
Theorem C14_chunker : forall p w t rd minB maxB avg c n, (p < 2 ^ 64)%N -> rabin_table p w = Some t ->
  Forall (fun b => (b < 256)%N) (rd_rest rd) -> rd_with rd = false ->
  new_chunker t rd minB maxB avg = Some c ->
  ck_run t minB maxB (hash_mask avg) n c =
  chunk_results p w minB maxB (hash_mask avg) (rd_term rd) (rd_rest rd) n.
Proof. exact chunker_lemma. Qed.

(** Two readers of the same bytes give the same chunks. *)
Theorem C14_independent_of_reader : forall p w t rd1 rd2 minB maxB avg c1 c2 n,
  (p < 2 ^ 64)%N -> rabin_table p w = Some t ->
  Forall (fun b => (b < 256)%N) (rd_rest rd1) -> rd_with rd1 = false -> rd_with rd2 = false ->
  rd_rest rd1 = rd_rest rd2 -> rd_term rd1 = rd_term rd2 ->
  new_chunker t rd1 minB maxB avg = Some c1 -> new_chunker t rd2 minB maxB avg = Some c2 ->
  ck_run t minB maxB (hash_mask avg) n c1 = ck_run t minB maxB (hash_mask avg) n c2.
Proof.
  intros p w t rd1 rd2 minB maxB avg c1 c2 n Hp Ht Hb W1 W2 ER ET N1 N2.
  rewrite (C14_chunker p w t rd1 minB maxB avg c1 n), (C14_chunker p w t rd2 minB maxB avg c2 n); auto.
  - now rewrite ER, ET.
  - now rewrite <- ER.
Qed.

(** The chunks cover the stream exactly, every chunk but the last has between minBytes and maxBytes
    bytes, and after them every Next returns (0, EOF). *)
Theorem C14_chunks_cover_the_stream : forall p w t rd minB maxB avg c, (p < 2 ^ 64)%N -> rabin_table p w = Some t ->
  Forall (fun b => (b < 256)%N) (rd_rest rd) -> rd_with rd = false -> rd_term rd = EOF ->
  new_chunker t rd minB maxB avg = Some c ->
  exists ls last, forall n,
    ck_run t minB maxB (hash_mask avg) (length ls + 1 + n) c =
      map (fun L => (L, None)) ls ++
      (if (0 <? last) || (w <? minB) then [(last, None)] ++ repeat (0, Some EOF) n else repeat (0, Some EOF) (S n))
    /\ Forall (fun L => minB <= L <= maxB) ls /\ last < maxB /\ list_sum ls + last = length (rd_rest rd).
Proof.
  intros p w t rd minB maxB avg c Hp Ht Hb Hwi He Hc.
  assert (0 < minB /\ minB <= maxB) as [M1 M2].
  { unfold new_chunker in Hc. destruct (Nat.eqb_spec (rwindow t) 0); [discriminate|].
    destruct (Nat.ltb_spec minB (rwindow t)); [discriminate|]. destruct (Nat.ltb_spec maxB minB); [discriminate|]. lia. }
  destruct (chunk_cover p w minB maxB (hash_mask avg) M1 M2 (length (rd_rest rd)) (rd_rest rd) (le_n _)) as (ls & last & E).
  exists ls, last. intros n. rewrite (C14_chunker p w t rd minB maxB avg c _ Hp Ht Hb Hwi Hc), He. apply E.
Qed.

(** Two very different readers of the same 12 bytes, both meeting the hypotheses of C14, and the
    chunks they give: window 2, minimum 3, maximum 7, average 4. *)
Definition ex_stream : list N := [5; 17; 33; 200; 201; 17; 3; 1; 255; 8; 90; 44]%N.
Example C14_nonvacuous : exists t c1 c2,
  rabin_table 0x11b 2 = Some t /\
  new_chunker t (mkreader ex_stream [1; 5; 0; 2] false false EOF) 3 7 4 = Some c1 /\
  new_chunker t (mkreader ex_stream [] true false EOF) 3 7 4 = Some c2 /\
  ck_run t 3 7 (hash_mask 4) 5 c1 = ck_run t 3 7 (hash_mask 4) 5 c2 /\
  ck_run t 3 7 (hash_mask 4) 5 c1 = chunk_results 0x11b 2 3 7 3 EOF ex_stream 5.
Proof. do 3 eexists. split; [reflexivity|]. split; [reflexivity|]. split; [reflexivity|]. split; vm_compute; reflexivity. Qed.

(** C15 is false: a reader that returns its three bytes together with io.EOF (allowed by io.Reader)
    loses two of them; Next reports one byte and then end of file. *)
Theorem C15_eof_with_data_refuted : exists p w t rd minB maxB avg c,
  (p < 2 ^ 64)%N /\ rabin_table p w = Some t /\ rd_rest rd = [1; 2; 3]%N /\ rd_with rd = true /\ rd_term rd = EOF /\
  new_chunker t rd minB maxB avg = Some c /\
  forall n, ck_run t minB maxB (hash_mask avg) (S n) c = (1, None) :: repeat (0, Some EOF) n.
Proof.
  exists 0x11b%N, 1. eexists. exists (mkreader [1; 2; 3]%N [] false true EOF), 1, 1, 1%N. eexists.
  split; [reflexivity|]. split; [reflexivity|]. do 3 (split; [reflexivity|]). split; [reflexivity|].
  intros n. cbn [ck_run].
  match goal with |- context [ck_next ?t ?a ?b ?m ?c] => set (r := ck_next t a b m c) end.
  assert (E : snd r = (1, None) /\ ck_err (fst r) = Some EOF) by (vm_compute; split; reflexivity).
  destruct r as [c' res]. destruct E as [E1 E2]. cbn [fst snd] in *. subst res. f_equal. now apply err_sticky.
Qed.

(** C62 is false: when the stream ends exactly at a boundary and minBytes is larger than the window,
    Next first returns the chunk (0, nil). *)
Theorem C62_no_empty_chunk_refuted : exists p w t rd minB maxB avg c,
  (p < 2 ^ 64)%N /\ rabin_table p w = Some t /\ rd_rest rd = [1; 2]%N /\ rd_with rd = false /\ rd_term rd = EOF /\
  new_chunker t rd minB maxB avg = Some c /\
  ck_run t minB maxB (hash_mask avg) 3 c = [(2, None); (0, None); (0, Some EOF)].
Proof.
  exists 0x11b%N, 1. eexists. exists (mkreader [1; 2]%N [] false false EOF), 2, 2, 1%N. eexists.
  split; [reflexivity|]. split; [reflexivity|]. do 3 (split; [reflexivity|]). split; [reflexivity|].
  vm_compute. reflexivity.
Qed.

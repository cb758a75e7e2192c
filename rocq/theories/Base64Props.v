(** C38: base64 decoding is memory safe and inverts encoding.
    The encoder, the alphabet and [wellformed] are the specification in Base64Spec.v. *)
From Verif Require Import Base Base64 Base64Spec Base64Proofs.
Open Scope Z_scope.

(** Whatever the source text, space and mode: no byte is written outside the destination. *)
Theorem C38_decode_memory_safe : forall src spc junk, base64_decode src spc junk <> BOOB.
Proof. exact decode_safe_lemma. Qed.
Print Assumptions C38_decode_memory_safe.

(** A successful decode reports no more bytes than the space given, all of them 8-bit values. *)
Theorem C38_decode_within_space : forall src spc junk bs, 0 <= spc -> base64_decode src spc junk = BOk bs ->
  Z.of_nat (length bs) <= spc /\ Forall is_byte bs.
Proof. exact decode_cap_lemma. Qed.
Print Assumptions C38_decode_within_space.

(** Decoding the padded encoding of any byte string returns it, given exactly the space for it. *)
Theorem C38_decode_encode_padded : forall bs spc junk, Forall is_byte bs -> Z.of_nat (length bs) <= spc ->
  base64_decode (encode true bs) spc junk = BOk bs.
Proof. exact decode_padded_lemma. Qed.
Print Assumptions C38_decode_encode_padded.

(** Without padding the decoder asks for the space of whole groups. *)
Theorem C38_decode_encode_unpadded : forall bs spc junk, Forall is_byte bs ->
  3 * ((Z.of_nat (length bs) + 2) / 3) <= spc ->
  base64_decode (encode false bs) spc junk = BOk bs.
Proof. exact decode_unpadded_lemma. Qed.
Print Assumptions C38_decode_encode_unpadded.

(** The documented size macro is exact for padded text. *)
Theorem C38_bufspc_exact : forall bs, Forall is_byte bs -> bufspc (encode true bs) = Z.of_nat (length bs).
Proof. exact bufspc_padded. Qed.
Print Assumptions C38_bufspc_exact.

(** With "ignore junk", characters outside the alphabet are skipped wherever they stand before the
    padding: the text decodes exactly as the text without them does in strict mode, given enough space
    for the text as it stands. *)
Theorem C38_junk_ignored : forall body clean p spc,
  ~ In EQ body ->
  (forall c, In c clean -> in_alphabet c) -> without_junk body clean ->
  bufspc (body ++ repeat EQ p) <= spc -> bufspc (clean ++ repeat EQ p) <= spc ->
  base64_decode (body ++ repeat EQ p) spc true = base64_decode (clean ++ repeat EQ p) spc false.
Proof. exact junk_ignored_lemma. Qed.
Print Assumptions C38_junk_ignored.
Example C38_junk_ignored_ex : (* "T W\nFu" *)
  without_junk [84; 32; 87; 10; 70; 117] [84; 87; 70; 117] /\
  base64_decode [84; 32; 87; 10; 70; 117] 6 true = BOk [77; 97; 110] /\
  base64_decode [84; 32; 87; 10; 70; 117] 6 false = BErr INVALID_ARG.
Proof.
  split; [|vm_compute; auto].
  assert (J : forall c, In c [32; 10] -> ~ in_alphabet c).
  { intros c Hc Ha. apply alphabet_lut in Ha. cbn in Hc.
    destruct Hc as [<-|[<-|[]]]; vm_compute in Ha; destruct Ha; discriminate. }
  apply wj_keep, wj_drop; [apply J; cbn; auto|]. apply wj_keep, wj_drop; [apply J; cbn; auto|].
  apply wj_keep, wj_keep, wj_nil.
Qed.

Example C38_encode_ex : encode true [77; 97; 110; 33] = [84;87;70;117;73;81;61;61]
  /\ base64_decode [84;87;70;117;73;81;61;61] 4 false = BOk [77; 97; 110; 33].
Proof. vm_compute. auto. Qed.

(** Malformed input is *not* always rejected in strict mode: "QQ=" (one pad character missing) decodes to
    two bytes, neither of which is the encoded 'A'; a lone "=" decodes to two zero bytes. *)
Theorem C38_malformed_rejected_refuted :
  exists src bs, ~ wellformed src /\ base64_decode src 16 false = BOk bs /\ bs = [1; 4].
Proof.
  exists [81; 81; 61], [1; 4]. split; [|vm_compute; auto].
  intros (body & p & E & Ha & Hp).
  assert (L : (length body + p = 3)%nat) by (apply (f_equal (@length Z)) in E; rewrite app_length, repeat_length in E; cbn in E; lia).
  assert (Hin : forall k, nth k (body ++ repeat EQ p) 0 = nth k [81; 81; 61] 0) by (intros; rewrite <- E; reflexivity).
  destruct Hp as [[-> Hm]|[[-> Hm]|[-> Hm]]].
  - assert (length body = 3)%nat by lia. specialize (Hin 2%nat). rewrite app_nth1 in Hin by lia. cbn in Hin.
    rewrite Forall_forall in Ha. assert (Hn : in_alphabet (nth 2 body 0)) by (apply Ha, nth_In; lia).
    rewrite Hin in Hn. apply alphabet_lut in Hn. vm_compute in Hn. destruct Hn as [_ Hn]. discriminate.
  - assert (length body = 2)%nat by lia. rewrite H in Hm. discriminate.
  - assert (length body = 1)%nat by lia. rewrite H in Hm. discriminate.
Qed.
Print Assumptions C38_malformed_rejected_refuted.

(** What strict mode does enforce: only alphabet characters followed by at most two '=', and no single
    leftover character.  Missing: that the number of '=' fits the last group (see the refutation). *)
Theorem C38_strict_partial : forall src spc bs, base64_decode src spc false = BOk bs ->
  exists body p, src = body ++ repeat EQ p /\ Forall in_alphabet body /\ (p <= 2)%nat /\
    (p = 0%nat -> (length body mod 4 <> 1)%nat).
Proof. exact decode_strict_lemma. Qed.
Print Assumptions C38_strict_partial.

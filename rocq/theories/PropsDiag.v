(** PropsDiag.v: what the errors of Decode mean (C115). *)
From Verif Require Import Base BencodeModel DiagModel DiagSpec DiagProofs.

(** *** C115 *)
(** The decoder with messages is Decode: the same value, or an error of the same kind. *)
Theorem C115_same data : match DecodeD data with Value v => Decode data = Ok v | Trouble c _ => exists e, Decode data = Err e /\ same_error c e | Unknown => False end.
Proof. exact (same_top data). Qed.
Print Assumptions C115_same.
(** What stands before and behind the cursor when it gives up. *)
Theorem C115_place data c k : DecodeD (whole data) = Trouble c k -> 0 <= k <= zlen data /\ accused c (firstn (Z.to_nat k) data) (skipn (Z.to_nat k) data).
Proof. exact (told_top data c k). Qed.
Print Assumptions C115_place.
(** Any error but the two for a panic is final: whatever follows the bytes read, the error is the same, with the same byte named. *)
Theorem C115_final data c k : DecodeD (whole data) = Trouble c k -> c <> CPanic -> 0 <= k /\ read_to c k <= zlen data /\ forall x, DecodeD (whole (firstn (Z.to_nat (read_to c k)) data ++ x)) = Trouble c k.
Proof. exact (corrupt_top data c k). Qed.
Print Assumptions C115_final.
(** The byte named is the first at which the data is beyond repair. *)
Theorem C115_byte data c k : DecodeD (whole data) = Trouble c k -> points c = true -> short_runs data -> viable (firstn (Z.to_nat k) data) /\ ~ viable (firstn (S (Z.to_nat k)) data).
Proof. exact (blame_top data c k). Qed.
Print Assumptions C115_byte.
(** The two errors for a panic are given exactly when the data only lacks its end. *)
Theorem C115_truncated data : short_runs data -> (viable data <-> (exists v, Decode (whole data) = Ok v) \/ exists k, DecodeD (whole data) = Trouble CPanic k).
Proof. exact (truncated_top data). Qed.
Print Assumptions C115_truncated.
(** Different errors have different texts. *)
Theorem C115_text d d' c c' k k' : DecodeD (whole d) = Trouble c k -> DecodeD (whole d') = Trouble c' k' -> forall len, error_text len c k = error_text len c' k' -> c = c' /\ (points c = true -> k = k').
Proof. intros H H' len. exact (text_top len c c' k k' (sound_top _ _ _ H) (sound_top _ _ _ H')). Qed.
Print Assumptions C115_text.
(** The errors for numbers: no digits, or too many. *)
Theorem C115_number data c k ds fn : (c = CAtoi ds /\ fn = B "Atoi") \/ (c = CParse ds /\ fn = B "ParseInt") -> DecodeD (whole data) = Trouble c k -> forall len, exists reason,
  error_text len c k = B "strconv." ++ fn ++ B ": parsing " ++ [x22] ++ ds ++ [x22] ++ B ": " ++ reason /\ ((ds = [] /\ reason = B "invalid syntax") \/ (max64 < amount ds /\ reason = B "value out of range")).
Proof. exact (number_top data c k ds fn). Qed.
Print Assumptions C115_number.
(** False: data that lacks its end is reported as such. *)
Theorem C115_end_refuted : exists data k, viable data /\ (forall v, Decode (whole data) <> Ok v) /\ DecodeD (whole data) = Trouble CPanic k /\ error_text (zlen data) CPanic k = B "decoder error: caught panic".
Proof. exact end_not. Qed.
Print Assumptions C115_end_refuted.
(** False: data reported to lack its end could be completed (a run of 20 digits). *)
Theorem C115_hopeless_refuted : exists data k, DecodeD (whole data) = Trouble CPanic k /\ error_text (zlen data) CPanic k = B "decoder error: read end of data before completion" /\ ~ viable data.
Proof. exact hopeless_not. Qed.
Print Assumptions C115_hopeless_refuted.

(** ** Cases *)
Definition said (s : bytes) : option bytes := match DecodeD (whole s) with Trouble c k => Some (error_text (zlen s) c k) | _ => None end.
Example C115_case :
  map said [B "d3:abci07ee"; B "l3:abcx"; B "i1x"; B "li-5e"; B "3:ab"; B "3:"; B ":"; B "ie"; B "i9223372036854775808e"; B ""; B "li5ee"] =
  [Some (B "decoder error: bad int (leading 0s) at byte 8"); Some (B "decoder error: bad string at byte 6"); Some (B "decoder error: bad int at byte 2"); Some (B "decoder error: read end of data before completion");
   Some (B "decoder error: caught panic"); Some (B "decoder error: read end of data before completion");
   Some (B "strconv.Atoi: parsing " ++ [x22; x22] ++ B ": invalid syntax"); Some (B "strconv.ParseInt: parsing " ++ [x22; x22] ++ B ": invalid syntax");
   Some (B "strconv.ParseInt: parsing " ++ [x22] ++ B "9223372036854775808" ++ [x22] ++ B ": value out of range"); Some (B "decoder error: read end of data before completion"); None].
Proof. vm_compute. reflexivity. Qed.
(** The hypotheses of C115_byte and C115_truncated. *)
Example C115_short_case : short_runs (B "l3:abcx") /\ DecodeD (whole (B "l3:abcx")) = Trouble CString 6 /\ points CString = true.
Proof.
  split; [|split; vm_compute; reflexivity]. intros p ds s H _. apply (f_equal (@List.length byte)) in H. rewrite !app_length in H. change (List.length (B "l3:abcx")) with 7%nat in H. lia.
Qed.

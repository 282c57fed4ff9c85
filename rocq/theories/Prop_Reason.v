(** * Prop_Reason: reasons in JSON (C150, C151). *)
From Coq Require Import Lia ZifyBool ZifyN ZifyNat String Ascii List.
From Verif Require Import GoBase Json Spec_Json JsonFacts Reason Spec_Reason ReasonFacts.
Import ListNotations.
Local Open Scope N_scope.

(** ** C150: a reason reads back. *)

(** As encoding/json writes it (a number; there is no MarshalJSON), every value,
    named or not, is read back. *)
Theorem C150_number_read_back : forall z, int32 z -> reason_json (json_int z) = RVal z.
Proof.
  intros z Hz. assert (Hr : read_int32 (json_int z) = Some z).
  { apply read_int32_iff. exists [], (json_int z), []. split; [rewrite app_nil_r; reflexivity|]. split; [constructor|]. split; [constructor|].
    right. split; [apply whole_int|exact Hz]. }
  pose proof (whole_int z) as (d & Hd & H). destruct d as [|x d]; [discriminate Hd|]. apply plain_iff in Hd. destruct Hd as [Hd _].
  cbn [forallb] in Hd. apply andb_prop in Hd. destruct Hd as [Hx _]. unfold digit in Hx.
  destruct H as [[E _]|[E _]]; rewrite E in *; apply unquoted_iff; try exact Hr; [lia|discriminate].
Qed.
(** Every reason of the .proto file is written by String under its own name, and
    its quoted name is read back, with its characters as they are or escaped. *)
Theorem C150_name_read_back : forall z s t w, In (z, s) declared_reasons -> spells (key s) t -> spaces w ->
  reason_string z = key s /\ reason_json ([34] ++ t ++ [34] ++ w) = RVal z.
Proof.
  intros z s t w Hs Ht Hw. split; [apply string_named, Hs|]. apply quoted_iff. exists s, t, w.
  split; [reflexivity|]. split; [exact Hw|]. split; [exact Ht|exact Hs].
Qed.
(** Two different values have different texts. *)
Theorem C150_text_identifies : forall z z', reason_string z = reason_string z' -> z = z'.
Proof. exact string_inj. Qed.
Example C150_example : In (13%Z, "ANGLE"%string) declared_reasons /\ reason_string 13 = key "ANGLE" /\
  spells (key "ANGLE") (key "\u0041NGL\u0045") /\ reason_string (-7) = key "-7" /\ reason_json (key "-7") = RVal (-7).
Proof.
  split; [cbn; tauto|]. split; [reflexivity|]. split; [|split; reflexivity].
  cbn. apply sp_u; [reflexivity|]. do 3 (apply sp_char; [lia|lia|lia|]). apply sp_u; [reflexivity|]. constructor.
Qed.

(** ** C151: what is read as a reason is a reason.  Refuted: null is read as 0
    and any number as itself, though the .proto file has no such reason; and the
    text String gives to such a value is not read. *)
Theorem C151_only_reasons_refuted : exists z, (forall s, ~ In (z, s) declared_reasons) /\ int32 z /\
  reason_json (key "null") = RVal z /\ reason_json (json_int z) = RVal z /\
  reason_json ([34] ++ reason_string z ++ [34]) = RErr.
Proof.
  exists 0%Z. split; [intros s H; cbn in H; intuition discriminate|]. split; [unfold int32; lia|]. repeat split.
Qed.
(** Exactly: the names of the .proto file in quotes, each character as it is or
    escaped, with no white space before; whole numbers that fit in 32 bits, and
    null, in white space; nothing else. *)
Theorem C151_accepted_exactly : forall b z, reason_json b = RVal z <->
  (exists s t w, b = [34] ++ t ++ [34] ++ w /\ spaces w /\ spells (key s) t /\ In (z, s) declared_reasons) \/
  (exists w1 t w2, b = w1 ++ t ++ w2 /\ spaces w1 /\ spaces w2 /\
     ((t = key "null" /\ z = 0%Z) \/ (whole t z /\ int32 z))).
Proof.
  intros b z. rewrite <- read_int32_iff. destruct b as [|c b].
  - split; [discriminate|]. intros [(s & t & w & H & _)|H]; [discriminate H|discriminate H].
  - destruct (N.eq_dec c 34) as [->|Hc].
    + rewrite quoted_iff. split.
      * intros (s & t & w & -> & H). left. exists s, t, w. split; [reflexivity|exact H].
      * intros [(s & t & w & Hb & H)|H]; [injection Hb as ->; exists s, t, w; split; [reflexivity|exact H]|]. discriminate H.
    + rewrite (unquoted_iff c b z Hc). split; [intros H; right; exact H|].
      intros [(s & t & w & Hb & _)|H]; [|exact H]. injection Hb as -> _. contradiction.
Qed.
(** The text of a value, quoted, is read back exactly when the value has a name. *)
Theorem C151_text_read_back_exactly : forall z,
  reason_json ([34] ++ reason_string z ++ [34]) = RVal z <-> exists s, In (z, s) declared_reasons.
Proof. exact text_back. Qed.
(** Called directly with no bytes at all, the method panics; otherwise never. *)
Theorem C151_panics_exactly : forall b, reason_json b = RPanic <-> b = [].
Proof.
  intros [|c b]; split; intros H; try reflexivity; [|discriminate H]. exfalso. unfold reason_json in H.
  destruct (c =? 34); [destruct (unquote b) as [[n r]|]; [destruct (skip_blank r); [destruct (value_named reason_values n)|]|]|destruct (read_int32 (c :: b))]; discriminate H.
Qed.
Example C151_example : spaces (key "  ") /\ whole (key "-0") 0 /\ reason_json (key "  -0 ") = RVal 0 /\
  reason_json (key "2147483648") = RErr /\ reason_json (key "007") = RErr /\ reason_json (key "1e1") = RErr.
Proof.
  split; [repeat constructor; left; reflexivity|]. split; [exists (key "0"); split; [reflexivity|right; split; reflexivity]|]. repeat split.
Qed.
Print Assumptions C150_number_read_back.
Print Assumptions C150_name_read_back.
Print Assumptions C150_text_identifies.
Print Assumptions C151_only_reasons_refuted.
Print Assumptions C151_accepted_exactly.
Print Assumptions C151_text_read_back_exactly.
Print Assumptions C151_panics_exactly.

(** * ReuseFacts: decoding into a used structure. *)
From Verif Require Import GoBase Float64 SubRecords Records Reuse Spec_Bits Spec_Reuse BaseFacts SubFacts RecFacts DecFacts TruncFacts.
From Coq Require Import Lia ZifyBool ZifyN ZifyNat.

Section ReuseFacts.
Context {E : go_env}.

Lemma opt_le_from {B} flag cur cur' tmp r (k : N * bytes * bytes -> res B) :
  bind (opt_le flag cur tmp r) k = bind (opt_le flag cur' tmp r) (fun x => k (pick flag (fst (fst x)) cur, snd (fst x), snd x)).
Proof. unfold opt_le, pick. destruct (is1 flag); [|reflexivity]. destruct (read_le tmp r) as [[[v t] r']| | |]; reflexivity. Qed.
Lemma opt_byte_from {B} flag cur cur' r (k : N * bytes -> res B) :
  bind (opt_byte flag cur r) k = bind (opt_byte flag cur' r) (fun x => k (pick flag (fst x) cur, snd x)).
Proof. unfold opt_byte, pick. destruct (is1 flag); [|reflexivity]. destruct (read_byte r) as [[v r']| | |]; reflexivity. Qed.
Lemma opt_fresh_from {B} flag cur cur' n r (k : bytes * bytes -> res B) :
  bind (opt_fresh flag cur n r) k = bind (opt_fresh flag cur' n r) (fun x => k (pick flag (fst x) cur, snd x)).
Proof. unfold opt_fresh, pick. destruct (is1 flag); [|reflexivity]. destruct (reader_read (zeros n) r) as [[v r']| | |]; reflexivity. Qed.
Lemma opt_u16_from {B} flag cur r (k : N * bytes -> res B) :
  bind (opt_u16 flag cur r) k = bind (opt_fresh flag [] 2 r) (fun x => k (pick flag (le_dec (fst x)) cur, snd x)).
Proof. unfold opt_u16, opt_fresh, pick. destruct (is1 flag); [|reflexivity]. destruct (reader_read (zeros 2) r) as [[v r']| | |]; reflexivity. Qed.

Ltac same := match goal with
  |- rmap _ (bind ?x _) = rmap _ (bind ?x _) => destruct x as [?p| | |]; [|lazy beta iota delta [bind rmap]; reflexivity ..];
     repeat match goal with p : (_ * _)%type |- _ => destruct p as [? ?] end; cbn [bind fst snd]
  end.
Ltac opts := first
  [ match goal with |- rmap _ (bind (opt_le ?f ?c ?t ?r) _) = rmap _ (bind (opt_le ?f ?c' ?t ?r) _) =>
      rewrite (opt_le_from f c c' t r) end
  | match goal with |- rmap _ (bind (opt_byte ?f ?c ?r) _) = rmap _ (bind (opt_byte ?f ?c' ?r) _) =>
      rewrite (opt_byte_from f c c' r) end
  | match goal with |- rmap _ (bind (opt_u16 ?f ?c ?r) _) = _ => rewrite (opt_u16_from f c r) end
  | match goal with |- rmap _ (bind (opt_fresh ?f ?c ?n ?r) _) = rmap _ (bind (opt_fresh ?f ?c' ?n ?r) _) =>
      rewrite (opt_fresh_from f c c' n r) end ].
Lemma rmap_rmap {A B C} (f : A -> B) (g : B -> C) x : rmap g (rmap f x) = rmap (fun a => g (f a)) x.
Proof. destruct x; reflexivity. Qed.

Lemma pick_same {A} f (v w : A) : pick f (pick f v w) w = pick f v w.
Proof. unfold pick. destruct (is1 f); reflexivity. Qed.

Lemma pos_into o c : sr_decode_into (SRPos o) c = rmap (kept (SRPos o) c) (fresh (SRPos o) c).
Proof.
  cbn [sr_decode_into fresh]. rewrite rmap_rmap. unfold pos_decode_into, pos_decode. cbv zeta.
  do 5 same. same. do 4 same. opts. same. reflexivity.
Qed.
Lemma ext_into o c : sr_decode_into (SRExt o) c = rmap (kept (SRExt o) c) (fresh (SRExt o) c).
Proof.
  cbn [sr_decode_into fresh]. rewrite rmap_rmap. unfold ext_decode_into, ext_decode. cbv zeta.
  same. do 5 (opts; same). reflexivity.
Qed.
Lemma term_into o c : sr_decode_into (SRTerm o) c = rmap (kept (SRTerm o) c) (fresh (SRTerm o) c).
Proof.
  cbn [sr_decode_into fresh]. rewrite rmap_rmap. unfold term_decode_into, term_decode. cbv zeta.
  do 2 same. do 7 (opts; same). reflexivity.
Qed.
Lemma ad_into o c : sr_decode_into (SRAd o) c = rmap (kept (SRAd o) c) (fresh (SRAd o) c).
Proof.
  cbn [sr_decode_into fresh]. rewrite rmap_rmap. unfold ad_decode_into, ad_decode. cbv zeta.
  do 3 same. do 16 (opts; same). reflexivity.
Qed.
Lemma counters_into o c : sr_decode_into (SRCounters o) c = rmap (kept (SRCounters o) c) (fresh (SRCounters o) c).
Proof.
  cbn [sr_decode_into fresh]. rewrite rmap_rmap. unfold counters_decode_into, counters_decode. cbv zeta.
  same. opts. same. 
  match goal with |- rmap _ (bind (opt_le ?f ?c ?t ?r) _) = rmap _ (bind (opt_le ?f ?c' ?t ?r) _) =>
      rewrite (opt_le_from f c 0 t r), (opt_le_from f c' 0 t r) end.
  same. do 6 (opts; same).
  unfold kept, pick8. cbn [rmap bind CFE CN o1 o2 o3 o4 o5 o6 o7 o8]. f_equal. f_equal. f_equal.
  unfold pick. destruct (is1 (o1 (flags_low_first (fmt_b 8 n)))), (is1 (o2 (flags_low_first (fmt_b 8 n)))); reflexivity.
Qed.
Lemma auth_into o c : sr_decode_into (SRAuth o) c = rmap (kept (SRAuth o) c) (fresh (SRAuth o) c).
Proof.
  cbn [sr_decode_into fresh]. rewrite rmap_rmap. unfold auth_decode_into, auth_decode.
  destruct (read_string 0 c) as [[u r]| | |] eqn:H1; try reflexivity. cbn [bind].
  destruct (read_string 0 r) as [[p r2]| | |] eqn:H2; try reflexivity. cbn [bind].
  apply read_string_len in H1. apply read_string_len in H2. destruct r2 as [|x r2].
  - cbn [rmap bind kept UNM UPSW SSQ]. replace (length u + length p + 2 <? length c)%nat with false; [reflexivity|].
    symmetry. apply Nat.ltb_ge. cbn [length] in H2. lia.
  - destruct (read_string 0 (x :: r2)) as [[s r3]| | |]; try reflexivity.
    cbn [rmap bind kept UNM UPSW SSQ]. replace (length u + length p + 2 <? length c)%nat with true; [reflexivity|].
    symmetry. apply Nat.ltb_lt. cbn [length] in H2. lia.
Qed.

Lemma rmap_id (f : srdata -> srdata) x : (forall e, x = Ok e -> f e = e) -> x = rmap f x.
Proof. intros H. destruct x; try reflexivity. cbn [rmap bind]. rewrite H; reflexivity. Qed.
Lemma into_exact o c : sr_decode_into o c = rmap (kept o c) (fresh o c).
Proof.
  destruct o; first [apply pos_into|apply term_into|apply ext_into|apply ad_into|apply auth_into|apply counters_into|idtac];
  try reflexivity; apply (rmap_id (kept _ c)); intros e' H; destruct e'; reflexivity.
Qed.

Lemma ptr_into o c : ptr_decode_into o c =
  rmap (fun p => {| RPID := RPID p; PR := PR p; SDRS := match SDRS p with None => SDRS o | Some l => Some l end |}) (ptr_decode c).
Proof.
  unfold ptr_decode_into, ptr_decode. destruct (buffer_read (zeros 2) c) as [[b r]| | |]; try reflexivity. cbn [bind].
  destruct (read_byte r) as [[pr r2]| | |]; try reflexivity. cbn [bind]. destruct r2; [reflexivity|].
  destruct (sds_decode (n :: r2)); reflexivity.
Qed.

End ReuseFacts.

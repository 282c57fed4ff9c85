(** * Prop_Accept: C31 — exactly which subrecord data is accepted. *)
From Coq Require Import Lia ZifyBool ZifyN ZifyNat.
From Verif Require Import GoBase Float64 SubRecords Records Package Spec_Bits Spec_Wf Spec_Rec Spec_Pkg Spec_Layout Spec_Accept
  BaseFacts SubFacts RecFacts DecFacts PkgFacts LayoutFacts AcceptFacts Vectors.

(** ** C31, exactly.  A subrecord of a fixed-layout type is accepted if and only
    if every field that it has, by its own flags, has its first byte. *)
Theorem C31_accepted_exactly : forall (E : go_env) dep t b ws, bytes_ok b = true -> sub_fields t b = Some ws ->
  ((exists d, sub_decode (S dep) t (blen b) b = Ok d) <-> begun ws 0 (length b)).
Proof. exact @fields_begun. Qed.
(** In one number: the bytes missing are fewer than the last field has. *)
Theorem C31_begun : forall ws off n, begun ws off n <->
  (last_width ws = 0 \/ off + fold_right Nat.add 0 ws < n + last_width ws)%nat.
Proof. exact sum_begun. Qed.
(** Of a subrecord that has all its fields, exactly the cuts inside the last
    field are accepted, and so none if the last field is one byte long. *)
Theorem C31_cut_exactly : forall (E : go_env) dep t b ws k, bytes_ok b = true -> sub_fields t b = Some ws -> complete ws (length b) ->
  ((exists d, sub_decode (S dep) t (blen (firstn k b)) (firstn k b) = Ok d) <-> (fold_right Nat.add 0 ws < k + last_width ws)%nat).
Proof.
  intros E dep t b ws k Hb Hw Hc. destruct (fields_cut t b k ws Hw) as (ws' & Hw' & Heq).
  assert (Hlw : (0 < last_width ws)%nat /\ (last_width ws <= fold_right Nat.add 0 ws)%nat).
  { assert (G : forall l, l <> [] -> ~ In 0%nat l -> (0 < last l 0 <= fold_right Nat.add 0 l)%nat).
    { induction l as [|x l IH]; [congruence|]. intros _ Hn. destruct l as [|y l].
      - cbn in *. lia.
      - specialize (IH ltac:(discriminate) ltac:(intros H; apply Hn; right; exact H)).
        change (last (x :: y :: l) 0%nat) with (last (y :: l) 0%nat). cbn [fold_right] in *. lia. }
    assert (Hs : forall l, fold_right Nat.add 0%nat (filter (fun w => negb (w =? 0)%nat) l) = fold_right Nat.add 0%nat l).
    { induction l as [|x l IH]; [reflexivity|]. cbn [filter fold_right]. destruct (Nat.eqb_spec x 0) as [->|Hx]; cbn [negb fold_right]; rewrite IH; reflexivity. }
    rewrite <- Hs. unfold last_width. apply G.
    - assert (Hne : exists w l, ws = S w :: l).
      { revert Hw. clear. unfold sub_fields. intros H.
        repeat match type of H with context [match ?x with _ => _ end] => destruct x; try discriminate H end;
        apply (f_equal (fun o => match o with Some x => x | None => [] end)) in H; cbv beta iota in H; subst ws; eexists _, _; reflexivity. }
      destruct Hne as (w & l & ->). cbn [filter negb Nat.eqb]. discriminate.
    - intros Hin. apply filter_In in Hin as [_ Hin]. discriminate Hin. }
  pose proof (fields_begun dep t (firstn k b) ws' (bytes_ok_firstn k b Hb) Hw') as H. unfold acc in H. rewrite H, Heq, sum_begun.
  unfold complete in Hc. lia.
Qed.
(** A login is accepted if and only if it has two terminated strings and then
    nothing, or a third one. *)
Theorem C31_login_exactly : forall (E : go_env) dep b,
  (exists d, sub_decode (S dep) 7 (blen b) b = Ok d) <->
  exists u p rest, b = u ++ 0 :: p ++ 0 :: rest /\ ~ In 0 u /\ ~ In 0 p /\ (rest = [] \/ In 0 rest).
Proof.
  intros E dep b. pose proof (auth_accepts b) as H. unfold acc in H. rewrite <- H. cbn [sub_decode N.eqb Pos.eqb]. apply acc_rmap.
Qed.
(** The position of 24 bytes of the repository's tests, the extended position of 6,
    and a login. *)
Example C31_cut_example :
  sub_fields 17 vec_sub_ext = Some [1; 0; 2; 2; 1; 0]%nat /\ length vec_sub_ext = 6%nat /\
  last_width [1; 0; 2; 2; 1; 0]%nat = 1%nat /\
  complete [1; 0; 2; 2; 1; 0]%nat 6 /\
  (exists b, bytes_ok b = true /\ length b = 24%nat /\ sub_fields 16 b = Some [4; 4; 4; 1; 2; 1; 3; 1; 1; 3]%nat /\ ~ begun [4; 4; 4; 1; 2; 1; 3; 1; 1; 3]%nat 0 21 /\ begun [4; 4; 4; 1; 2; 1; 3; 1; 1; 3]%nat 0 22).
Proof.
  vm_compute sub_fields. repeat (split; [reflexivity|]). split; [cbv; lia|].
  exists (zeros 12 ++ [128] ++ zeros 11). repeat (split; [reflexivity|]). rewrite !sum_begun. cbn. lia.
Qed.
Print Assumptions C31_accepted_exactly.
Print Assumptions C31_begun.
Print Assumptions C31_cut_exactly.
Print Assumptions C31_login_exactly.

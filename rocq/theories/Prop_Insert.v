(** * Prop_Insert: C153 — records are inserted in the table of the section. *)
From Coq Require Import String List Lia Bool ZifyBool ZifyN ZifyNat.
From Verif Require Import GoBase BaseFacts Float64 Storage Connectors Insert Spec_Storage Spec_Insert StorageFacts.
Import ListNotations.
Local Open Scope N_scope.
Local Open Scope list_scope.

Lemma skip_spec s : exists ws, s = ws ++ sql_skip s /\ Forall (fun c => sql_blank c = true) ws.
Proof.
  induction s as [|c s (ws & IH1 & IH2)]; [exists []; split; [reflexivity|constructor]|]. cbn [sql_skip].
  destruct (sql_blank c) eqn:Hc; [|exists []; split; [reflexivity|constructor]].
  exists (c :: ws). split; [cbn [app]; f_equal; exact IH1|constructor; assumption].
Qed.
Lemma skip_nonblank c s : sql_blank c = false -> sql_skip (c :: s) = c :: s.
Proof. intros H. cbn [sql_skip]. rewrite H. reflexivity. Qed.
Lemma span_spec s : forall a r, sql_span s = (a, r) -> s = a ++ r /\ Forall (fun c => sql_cont c = true) a.
Proof.
  induction s as [|c s IH]; intros a r; cbn [sql_span]; [intros [= <- <-]; split; [reflexivity|constructor]|].
  destruct (sql_cont c) eqn:Hc; [|intros [= <- <-]; split; [reflexivity|constructor]].
  destruct (sql_span s) as [a' r'] eqn:Hs. intros [= <- <-]. destruct (IH _ _ eq_refl) as [-> H].
  split; [reflexivity|constructor; assumption].
Qed.
Lemma span_app a c r : Forall (fun c => sql_cont c = true) a -> sql_cont c = false -> sql_span (a ++ c :: r) = (a, c :: r).
Proof.
  induction 1 as [|x a Hx _ IH]; intros Hc; cbn [app sql_span]; [rewrite Hc; reflexivity|]. rewrite Hx, IH by exact Hc. reflexivity.
Qed.
Lemma quoted_length n : forall s t r, (length s <= n)%nat -> sql_quoted s = Some (t, r) -> exists a, s = a ++ r /\ (length t + 1 <= length a)%nat.
Proof.
  induction n as [|n IH]; intros s t r Hn; (destruct s as [|c s]; [discriminate|]); cbn [length] in Hn; [lia|]. cbn [sql_quoted].
  destruct (c =? 34) eqn:Hc.
  - destruct s as [|d s'].
    + intros [= <- <-]. exists [c]. split; [reflexivity|cbn; lia].
    + destruct (d =? 34).
      * destruct (sql_quoted s') as [[t' r']|] eqn:Hq; [|discriminate]. intros [= <- <-].
        destruct (IH s' t' r' ltac:(cbn [length] in Hn; lia) Hq) as (a & -> & Ha). exists (c :: d :: a). split; [reflexivity|cbn [length]; lia].
      * intros [= <- <-]. exists [c]. split; [reflexivity|cbn; lia].
  - destruct (sql_quoted s) as [[t' r']|] eqn:Hq; [|discriminate]. intros [= <- <-].
    destruct (IH s t' r' ltac:(lia) Hq) as (a & -> & Ha). exists (c :: a). split; [reflexivity|cbn [length]; lia].
Qed.
Lemma cut_length s : (length (name_cut s) <= length s)%nat.
Proof. unfold name_cut. rewrite firstn_length. lia. Qed.

Section Names.
Variable keyword : gostr -> bool.

Lemma name_spec first s n r : sql_name keyword first s = Some (n, r) -> exists a, s = a ++ r /\
  ((length n + 2 <= length a)%nat \/
   (exists c a', a = c :: a' /\ sql_start c = true) /\ Forall (fun c => sql_cont c = true) a /\ n = name_cut (map sql_fold a) /\ (first = true -> keyword n = false)).
Proof.
  destruct s as [|c s]; [discriminate|]. cbn [sql_name]. destruct (c =? 34) eqn:Hc.
  - destruct (sql_quoted s) as [[[|x t] r']|] eqn:Hq; [discriminate| |discriminate]. intros [= <- <-].
    destruct (quoted_length _ _ _ _ (le_n _) Hq) as (a & -> & Ha). exists (c :: a). split; [reflexivity|]. left.
    pose proof (cut_length (x :: t)). cbn [length] in *. lia.
  - destruct (sql_start c) eqn:Hs; [|discriminate]. cbn [sql_span].
    assert (Hk : sql_cont c = true) by (unfold sql_cont; rewrite Hs; reflexivity). rewrite Hk.
    destruct (sql_span s) as [a r'] eqn:Hp. destruct (span_spec _ _ _ Hp) as [-> Ha].
    destruct (first && keyword _) eqn:Hf; [discriminate|]. intros [= <- <-]. exists (c :: a). split; [reflexivity|]. right.
    split; [exists c, a; split; [reflexivity|exact Hs]|]. split; [constructor; assumption|]. split; [reflexivity|].
    intros ->. exact Hf.
Qed.
Lemma names_one fuel first s n r : sql_names keyword fuel first s = Some ([n], r) ->
  exists r0, sql_name keyword first (sql_skip s) = Some (n, r0) /\ r = sql_skip r0.
Proof.
  destruct fuel as [|fuel]; [discriminate|]. cbn [sql_names]. destruct (sql_name keyword first (sql_skip s)) as [[n' r0]|]; [|discriminate].
  destruct (sql_skip r0) as [|c r'] eqn:Hr.
  - intros [= <- <-]. exists r0. split; [reflexivity|symmetry; exact Hr].
  - destruct (c =? 46).
    + destruct (sql_names keyword fuel false r') as [[l r2]|] eqn:Hn; [|discriminate]. intros [= _ Hl _]. exfalso. subst l.
      destruct fuel as [|fuel]; [discriminate|]. cbn [sql_names] in Hn. destruct (sql_name keyword false (sql_skip r')) as [[n2 r3]|]; [|discriminate].
      destruct (sql_skip r3) as [|d r4]; [discriminate|]. destruct (d =? 46); [|discriminate]. destruct (sql_names keyword fuel false r4) as [[l5 r5]|]; discriminate.
    + intros [= <- <-]. exists r0. split; [reflexivity|symmetry; exact Hr].
Qed.
Lemma strip_app p s : strip p (p ++ s) = Some s.
Proof. induction p as [|c p IH]; cbn [app strip]; [destruct s; reflexivity|]. rewrite N.eqb_refl. exact IH. Qed.
Lemma target_text t : insert_target keyword (insert_into ++ t ++ 32 :: the_point) =
  match sql_names keyword (length (t ++ 32 :: the_point)) true (t ++ 32 :: the_point) with
  | Some (l, r) => if str_eqb r the_point && (length l <=? 3)%nat then Some l else None
  | None => None
  end.
Proof. unfold insert_target. rewrite strip_app. reflexivity. Qed.

Lemma fold_cont c : sql_cont c = true -> sql_blank (sql_fold c) = false.
Proof. unfold sql_cont, sql_start, sql_fold, sql_blank. intros H. destruct ((65 <=? c) && (c <=? 90)) eqn:E; lia. Qed.
Lemma fold_simple c : sql_cont c = true -> sql_fold c = c -> name_char c.
Proof. unfold sql_cont, sql_start, sql_fold, name_char, name_start. intros H. destruct ((65 <=? c) && (c <=? 90)) eqn:E; lia. Qed.
Lemma fold_start c : sql_start c = true -> sql_fold c = c -> name_start c.
Proof. unfold sql_start, sql_fold, name_start. intros H. destruct ((65 <=? c) && (c <=? 90)) eqn:E; lia. Qed.
Lemma simple_cont c : name_char c -> sql_cont c = true /\ sql_fold c = c.
Proof.
  unfold sql_cont, sql_start, sql_fold, name_char, name_start. intros H. split; [lia|]. destruct ((65 <=? c) && (c <=? 90)) eqn:E; lia.
Qed.
(** an unquoted name is read as its lowered form *)
Lemma bare_target t : (exists c t', t = c :: t' /\ sql_start c = true) -> Forall (fun c => sql_cont c = true) t ->
  keyword (name_cut (map sql_fold t)) = false ->
  insert_target keyword (insert_into ++ t ++ 32 :: the_point) = Some [name_cut (map sql_fold t)].
Proof.
  intros (c & t' & -> & Hs) Ht Hk. rewrite target_text. cbn [app length sql_names].
  assert (Hb : sql_blank c = false) by (unfold sql_start, sql_blank in *; lia). rewrite skip_nonblank by exact Hb.
  assert (Hn : sql_name keyword true (c :: t' ++ 32 :: the_point) = Some (name_cut (map sql_fold (c :: t')), 32 :: the_point)).
  { cbn [sql_name]. assert (Hq : (c =? 34) = false) by (unfold sql_start in Hs; lia). rewrite Hq, Hs.
    change (c :: t' ++ 32 :: the_point) with ((c :: t') ++ 32 :: the_point). rewrite span_app by (first [exact Ht|reflexivity]).
    cbn [andb]. rewrite Hk. reflexivity. }
  rewrite Hn. reflexivity.
Qed.
Lemma last_blank (t a ws : gostr) : t ++ [32] = a ++ ws -> Forall (fun c => sql_cont c = true) a -> Forall (fun c => sql_blank c = false) t ->
  Forall (fun c => sql_blank c = true) ws -> t = a.
Proof.
  intros E Ha Ht Hw. assert (Hne : ws <> []).
  { intros ->. rewrite app_nil_r in E. subst a. apply Forall_app in Ha. destruct Ha as [_ Ha]. apply Forall_inv in Ha. discriminate Ha. }
  destruct (exists_last Hne) as (ws' & x & ->). rewrite app_assoc in E. apply app_inj_tail in E. destruct E as [-> _].
  apply Forall_app in Hw. destruct Hw as [Hw _]. apply Forall_app in Ht. destruct Ht as [_ Ht].
  destruct ws' as [|y ws']; [rewrite app_nil_r; reflexivity|]. apply Forall_inv in Hw. apply Forall_inv in Ht. congruence.
Qed.
Lemma target_iff t : insert_target keyword (insert_into ++ t ++ 32 :: the_point) = Some [t] <-> simple_name keyword t.
Proof.
  split.
  - rewrite target_text. destruct (sql_names keyword _ true _) as [[l r]|] eqn:Hn; [|discriminate].
    destruct (str_eqb r the_point) eqn:Hr; [|discriminate]. apply str_eqb_spec in Hr. subst r. cbn [andb].
    destruct (length l <=? 3)%nat; [|discriminate]. intros [= ->].
    destruct (names_one _ _ _ _ _ Hn) as (r0 & H1 & H2). clear Hn.
    destruct (skip_spec (t ++ 32 :: the_point)) as (ws & Hws & Hb). destruct (skip_spec r0) as (ws2 & Hws2 & Hb2).
    rewrite <- H2 in Hws2. destruct (name_spec _ _ _ _ H1) as (a & Ha & Hcase). rewrite Ha, Hws2 in Hws.
    assert (E : t ++ [32] = ws ++ a ++ ws2).
    { apply (app_inv_tail the_point). rewrite <- !app_assoc. exact Hws. }
    destruct Hcase as [Hlen|((c & a' & Ea & Hs) & Hc & Ht & Hk)].
    + exfalso. apply (f_equal (@length N)) in E. rewrite !app_length in E. cbn [length] in E. lia.
    + assert (Hnb : Forall (fun c => sql_blank c = false) t).
      { rewrite Ht. unfold name_cut. rewrite firstn_map. apply Forall_map, Forall_forall. intros x Hx.
        apply fold_cont. rewrite Forall_forall in Hc. apply Hc. rewrite <- (firstn_skipn 63 a). apply in_or_app. left. exact Hx. }
      assert (ws = []) as ->.
      { destruct ws as [|w ws]; [reflexivity|]. exfalso. apply Forall_inv in Hb. destruct t as [|t0 t].
        - subst a. discriminate Ht.
        - injection E as -> _. apply Forall_inv in Hnb. congruence. }
      cbn [app] in E. assert (t = a) as Eta by exact (last_blank t a ws2 E Hc Hnb Hb2). rewrite <- Eta in *.
      assert (Hl : (length t <= 63)%nat).
      { rewrite Ht. unfold name_cut. rewrite firstn_length. lia. }
      unfold name_cut in Ht. rewrite firstn_all2 in Ht by (rewrite map_length; exact Hl).
      assert (Hf : Forall (fun c => sql_fold c = c) t).
      { clear - Ht. induction t as [|x t IH]; [constructor|]. cbn [map] in Ht. injection Ht as H1 H2. constructor; [congruence|exact (IH H2)]. }
      split; [|split; [|split; [exact Hl|exact (Hk eq_refl)]]].
      * exists c, a'. split; [exact Ea|]. apply fold_start; [exact Hs|]. rewrite Ea in Hf. exact (Forall_inv Hf).
      * apply Forall_forall. intros x Hx. rewrite Forall_forall in Hc, Hf. apply fold_simple; [exact (Hc x Hx)|exact (Hf x Hx)].
  - intros ((c & t' & E & Hs) & Ht & Hl & Hk).
    assert (Hf : name_cut (map sql_fold t) = t).
    { unfold name_cut. rewrite firstn_all2 by (rewrite map_length; exact Hl). clear - Ht.
      induction Ht as [|x t Hx _ IH]; [reflexivity|]. cbn [map]. rewrite (proj2 (simple_cont x Hx)), IH. reflexivity. }
    rewrite bare_target; [rewrite Hf; reflexivity| | |rewrite Hf; exact Hk].
    + exists c, t'. split; [exact E|]. unfold sql_start. unfold name_start in Hs. lia.
    + eapply Forall_impl; [|exact Ht]. intros x Hx. exact (proj1 (simple_cont x Hx)).
Qed.
Lemma quoted_back t r : (forall r', r <> 34 :: r') -> sql_quoted (doubled t ++ 34 :: r) = Some (t, r).
Proof.
  intros Hr. induction t as [|c t IH]; cbn [doubled app].
  - cbn [sql_quoted]. destruct r as [|d r]; [reflexivity|]. change (34 =? 34) with true. cbv iota.
    destruct (N.eqb_spec d 34) as [->|_]; [exfalso; exact (Hr r eq_refl)|reflexivity].
  - destruct (N.eqb_spec c 34) as [->|Hc].
    + cbn [app sql_quoted]. change (34 =? 34) with true. cbv iota. rewrite IH. reflexivity.
    + cbn [app sql_quoted]. destruct (N.eqb_spec c 34) as [H|_]; [contradiction|]. rewrite IH. reflexivity.
Qed.
Lemma quoted_target t : t <> [] -> (length t <= 63)%nat ->
  insert_target keyword (insert_into ++ in_quotes t ++ 32 :: the_point) = Some [t].
Proof.
  intros Hn Hl. rewrite target_text. unfold in_quotes. cbn [app length sql_names]. rewrite skip_nonblank by reflexivity.
  assert (Hq : sql_name keyword true (34 :: (doubled t ++ [34]) ++ 32 :: the_point) = Some (t, 32 :: the_point)).
  { cbn [sql_name]. change (34 =? 34) with true. cbv iota. rewrite <- app_assoc. cbn [app]. rewrite quoted_back by discriminate.
    destruct t as [|x t]; [congruence|]. unfold name_cut. rewrite firstn_all2 by exact Hl. reflexivity. }
  rewrite Hq. reflexivity.
Qed.
End Names.

Lemma pg_opened lib m dsn query : connector_init lib KPostgres (Some m) = Some (CnPg dsn query) ->
  query = insert_into ++ setting m "table" ++ 32 :: the_point.
Proof.
  cbn [connector_init]. unfold init_pg. destruct (lib (LPgOpen (pg_dsn m))); [|discriminate].
  destruct (lib (LPgPing (pg_dsn m))); [|discriminate]. intros [= _ <-]. reflexivity.
Qed.

(** ** C153: the records are inserted in the table named in the section.
    Refuted: a name with capitals is lowered, so "Points" writes to points; one
    with a hyphen makes no such statement. *)
Definition pg_table (t : gostr) : list (gostr * gostr) :=
  [(text "host", text "localhost"); (text "port", text "5432"); (text "user", text "postgres"); (text "password", text "postgres");
   (text "database", text "receiver"); (text "table", t); (text "sslmode", text "disable")].
Theorem C153_table_as_named_refuted : forall lib keyword, (forall call, lib call = true) -> keyword (text "points") = false ->
  (exists dsn query, connector_init lib KPostgres (Some (pg_table (text "Points"))) = Some (CnPg dsn query) /\
     insert_target keyword query = Some [text "points"]) /\
  (exists dsn query, connector_init lib KPostgres (Some (pg_table (text "car-points"))) = Some (CnPg dsn query) /\
     insert_target keyword query = None).
Proof.
  intros lib keyword Hlib Hk. split.
  - eexists _, _. split; [unfold connector_init, init_pg; rewrite !Hlib; reflexivity|].
    change (insert_target keyword (insert_into ++ text "Points" ++ 32 :: the_point) = Some [text "points"]).
    rewrite bare_target; [reflexivity|exists 80, (text "oints"); split; reflexivity|repeat constructor|exact Hk].
  - eexists _, _. split; [unfold connector_init, init_pg; rewrite !Hlib; reflexivity|].
    change (insert_target keyword (insert_into ++ text "car-points" ++ 32 :: the_point) = None).
    vm_compute. match goal with |- context [keyword ?x] => destruct (keyword x) end; reflexivity.
Qed.
(** Exactly: a name reaches the server as it is if and only if it is a simple
    one: lower case, at most 63 bytes, and no word with a meaning. *)
Theorem C153_table_as_named_exactly : forall lib keyword m dsn query,
  connector_init lib KPostgres (Some m) = Some (CnPg dsn query) ->
  (insert_target keyword query = Some [setting m "table"] <-> simple_name keyword (setting m "table")).
Proof. intros lib keyword m dsn query Hi. rewrite (pg_opened _ _ _ _ Hi). apply target_iff. Qed.
(** A name that differs from a simple one in the case of its letters is the
    simple one. *)
Theorem C153_capitals_lowered : forall lib keyword m dsn query t,
  connector_init lib KPostgres (Some m) = Some (CnPg dsn query) ->
  Forall2 lowered (setting m "table") t -> simple_name keyword t ->
  insert_target keyword query = Some [t].
Proof.
  intros lib keyword m dsn query t Hi Hl ((c & t' & -> & Hs) & Ht & Hlen & Hk). rewrite (pg_opened _ _ _ _ Hi). clear Hi.
  remember (setting m "table") as T eqn:ET. clear ET.
  assert (Hf : map sql_fold T = c :: t').
  { clear - Hl. induction Hl as [|x y T t Hxy _ IH]; [reflexivity|]. cbn [map]. rewrite IH. f_equal.
    unfold lowered, sql_fold in *. destruct ((65 <=? x) && (x <=? 90)) eqn:E; lia. }
  assert (Hc : name_cut (map sql_fold T) = c :: t') by (rewrite Hf; unfold name_cut; apply firstn_all2; exact Hlen).
  rewrite bare_target; [rewrite Hc; reflexivity| | |rewrite Hc; exact Hk].
  - destruct T as [|d T]; [discriminate Hf|]. exists d, T. split; [reflexivity|]. inversion Hl as [|? ? ? ? Hd _]; subst.
    unfold lowered, name_start, sql_start in *. lia.
  - clear - Hl Ht. revert Ht. induction Hl as [|x y T t Hxy _ IH]; intros Ht; [constructor|]. apply Forall_cons_iff in Ht. destruct Ht as [Hy Ht].
    constructor; [|exact (IH Ht)]. unfold lowered, name_char, name_start, sql_cont, sql_start in *. lia.
Qed.
(** What can be done about it: any name, in double quotes in the section. *)
Theorem C153_quoted_as_named : forall lib keyword m dsn query t,
  connector_init lib KPostgres (Some m) = Some (CnPg dsn query) ->
  setting m "table" = in_quotes t -> t <> [] -> ~ In 0 t -> (length t <= 63)%nat ->
  insert_target keyword query = Some [t].
Proof. intros lib keyword m dsn query t Hi Ht Hn _ Hl. rewrite (pg_opened _ _ _ _ Hi), Ht. apply quoted_target; assumption. Qed.
Example C153_example : forall lib, (forall call, lib call = true) ->
  (exists dsn query, connector_init lib KPostgres (Some (pg_table (text "points"))) = Some (CnPg dsn query)) /\
  simple_name (fun _ => false) (text "points") /\ Forall2 lowered (text "Points") (text "points") /\
  in_quotes (text "car-points") = [34] ++ text "car-points" ++ [34] /\
  insert_target (fun _ => false) (insert_into ++ text "fleet.Points" ++ 32 :: the_point) = Some [text "fleet"; text "points"].
Proof.
  intros lib Hlib. split; [eexists _, _; unfold connector_init, init_pg; rewrite !Hlib; reflexivity|].
  assert (G : forall l, forallb (fun c => (97 <=? c) && (c <=? 122)) l = true -> Forall name_char l).
  { intros l H. apply Forall_forall. intros c Hc. rewrite forallb_forall in H. specialize (H c Hc). left. left. lia. }
  split; [split; [exists 112, (text "oints"); split; [reflexivity|left; lia]|split; [apply G; reflexivity|split; [cbn; lia|reflexivity]]]|].
  split; [|split; vm_compute; reflexivity].
  change (text "Points") with [80; 111; 105; 110; 116; 115]. change (text "points") with [112; 111; 105; 110; 116; 115].
  constructor; [left; split; [lia|reflexivity]|]. repeat (constructor; [right; split; [lia|reflexivity]|]). constructor.
Qed.
Print Assumptions C153_table_as_named_refuted.
Print Assumptions C153_table_as_named_exactly.
Print Assumptions C153_capitals_lowered.
Print Assumptions C153_quoted_as_named.

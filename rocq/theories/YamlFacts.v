(** * YamlFacts: the lemmas behind Prop_Yaml. *)
From Coq Require Import String List.
From Verif Require Import GoBase Float64 Storage Connectors Config Main Yaml Spec_Storage Spec_Yaml BaseFacts StorageFacts.
From Coq Require Import Lia Bool.

Lemma given_snoc {A} (l : list (gostr * A)) k v k' :
  given (l ++ [(k, v)]) k' = if list_eq_dec N.eq_dec k k' then Some v else given l k'.
Proof.
  induction l as [|[k0 v0] l IH]; cbn [given app]; [destruct (list_eq_dec N.eq_dec k k'); reflexivity|].
  rewrite IH. destruct (list_eq_dec N.eq_dec k k'); reflexivity.
Qed.
Lemma given_notin {A} (l : list (gostr * A)) k : ~ In k (map fst l) -> given l k = None.
Proof.
  induction l as [|[k0 v0] l IH]; cbn [given map fst In]; [reflexivity|]. intros H. rewrite IH by tauto.
  destruct (list_eq_dec N.eq_dec k0 k); [tauto|reflexivity].
Qed.
Lemma given_in {A} (l : list (gostr * A)) k v : given l k = Some v -> In (k, v) l.
Proof.
  induction l as [|[k0 v0] l IH]; cbn [given]; [discriminate|].
  destruct (given l k) as [v'|]; [intros [= ->]; right; auto|].
  destruct (list_eq_dec N.eq_dec k0 k) as [->|]; [intros [= ->]; left; reflexivity|discriminate].
Qed.

Lemma map_set_keys {A} (m : list (gostr * A)) k v k' : In k' (map fst (map_set m k v)) <-> k = k' \/ In k' (map fst m).
Proof.
  induction m as [|[k0 v0] m IH]; cbn [map_set map fst In]; [tauto|].
  destruct (str_eqb k k0) eqn:He; cbn [map fst In].
  - apply str_eqb_eq in He as <-. tauto.
  - rewrite IH. tauto.
Qed.
Lemma map_set_nodup {A} (m : list (gostr * A)) k v : NoDup (map fst m) -> NoDup (map fst (map_set m k v)).
Proof.
  induction m as [|[k0 v0] m IH]; cbn [map_set map fst]; intros H; [repeat constructor; cbn; tauto|].
  inversion H as [|? ? Hn Hd]; subst. destruct (str_eqb k k0) eqn:He; cbn [map fst].
  - apply str_eqb_eq in He as <-. constructor; assumption.
  - constructor; [|auto]. rewrite map_set_keys. intros [->|H1]; [|tauto].
    assert (str_eqb k0 k0 = true) by (apply str_eqb_eq; reflexivity). congruence.
Qed.
Lemma map_set_given {A} (m : list (gostr * A)) k v k' : NoDup (map fst m) ->
  given (map_set m k v) k' = if list_eq_dec N.eq_dec k k' then Some v else given m k'.
Proof.
  induction m as [|[k0 v0] m IH]; cbn [map_set map fst]; intros H; [reflexivity|].
  inversion H as [|? ? Hn Hd]; subst. destruct (str_eqb k k0) eqn:He; cbn [given].
  - apply str_eqb_eq in He as <-. destruct (list_eq_dec N.eq_dec k k') as [<-|]; [|reflexivity].
    rewrite given_notin by assumption. reflexivity.
  - rewrite IH by assumption. destruct (list_eq_dec N.eq_dec k k') as [<-|]; reflexivity.
Qed.
Lemma map_set_new {A} (m : list (gostr * A)) k v : ~ In k (map fst m) -> map_set m k v = m ++ [(k, v)].
Proof.
  induction m as [|[k0 v0] m IH]; cbn [map_set map fst In app]; intros H; [reflexivity|].
  destruct (str_eqb k k0) eqn:He; [apply str_eqb_eq in He; subst; tauto|]. rewrite IH by tauto. reflexivity.
Qed.

Lemma y_string_says n s : y_string n = Some s <-> says n s.
Proof.
  split; [destruct n; cbn; intros [= <-]; constructor|intros []; reflexivity].
Qed.
Lemma y_int_counts n z : y_int n = Some z <-> counts n z.
Proof.
  split.
  - destruct n as [| |z0 t|z0 t| | |]; cbn [y_int]; try discriminate; [intros [= <-]; constructor| |];
      (destruct (Z.leb_spec (- 2 ^ 63) z0); [|discriminate]); (destruct (Z.ltb_spec z0 (2 ^ 63)); [|discriminate]);
      intros [= <-]; constructor; split; assumption.
  - intros [|z0 t [H1 H2]|z0 t [H1 H2]]; cbn [y_int]; [reflexivity| |];
      apply Z.leb_le in H1; apply Z.ltb_lt in H2; rewrite H1, H2; reflexivity.
Qed.

Section Entries.
Context {A : Type} (elem : ynode -> option A) (R : ynode -> A -> Prop).

Lemma y_entries_holds (elem_R : forall n v, elem n = Some v -> R n v) l : forall l0 m m', holds R l0 m -> y_entries elem m l = Some m' ->
  holds R (l0 ++ l) m' /\ Forall (fun e => exists v, elem (snd e) = Some v) l.
Proof.
  induction l as [|[k n] l IH]; intros l0 m m' Hh; cbn [y_entries].
  - intros [= <-]. rewrite app_nil_r. split; [assumption|constructor].
  - destruct (elem n) as [v|] eqn:He; [|discriminate]. intros H.
    destruct (IH (l0 ++ [(k, n)]) (map_set m k v) m') as [H1 H2]; [|exact H|].
    { destruct Hh as [Hd Hg]. split; [apply map_set_nodup; assumption|]. intros k'.
      rewrite given_snoc, map_set_given by assumption. destruct (list_eq_dec N.eq_dec k k'); [apply elem_R; assumption|apply Hg]. }
    rewrite <- app_assoc in H1. split; [exact H1|]. constructor; [exists v; exact He|exact H2].
Qed.
Lemma y_entries_some l : Forall (fun e => exists v, elem (snd e) = Some v) l -> forall m, exists m', y_entries elem m l = Some m'.
Proof.
  induction 1 as [|[k n] l [v Hv] _ IH]; intros m; cbn [y_entries]; [exists m; reflexivity|].
  cbn [snd] in Hv. rewrite Hv. apply IH.
Qed.
Lemma y_entries_none l m : y_entries elem m l = None -> Exists (fun e => elem (snd e) = None) l.
Proof.
  revert m. induction l as [|[k n] l IH]; intros m; cbn [y_entries]; [discriminate|].
  destruct (elem n) eqn:He; [intros H; right; eapply IH; exact H|left; exact He].
Qed.
End Entries.

Lemma holds_nil {A} (R : ynode -> A -> Prop) : holds R [] [].
Proof. split; [constructor|intros k; exact I]. Qed.

Lemma y_section_says n s : y_section n = Some s -> section_says n s.
Proof.
  destruct n as [| | | | |l|]; cbn [y_section]; try discriminate; [intros [= <-]; constructor|].
  destruct (y_entries y_string [] l) as [m|] eqn:He; [|discriminate]. intros [= <-].
  destruct (y_entries_holds y_string says (fun n v => proj1 (y_string_says n v)) l [] [] m (holds_nil _) He) as [H1 H2].
  constructor; [exact H1|]. eapply Forall_impl; [|exact H2]. intros e [v Hv]. exists v. apply y_string_says. exact Hv.
Qed.
Lemma y_section_total n : (exists s, y_section n = Some s) <-> a_section n.
Proof.
  split.
  - intros [s H]. apply y_section_says in H. destruct H as [|l m H1 H2]; [left; reflexivity|right; exists l; split; [reflexivity|exact H2]].
  - intros [->|[l [-> H]]]; [exists None; reflexivity|]. cbn [y_section].
    destruct (y_entries_some y_string l) with (m := @nil (gostr * gostr)) as [m' Hm].
    { eapply Forall_impl; [|exact H]. intros e [s Hs]. exists s. apply y_string_says. exact Hs. }
    rewrite Hm. eexists; reflexivity.
Qed.
Lemma y_store_total m n : (exists s, y_store m n = Some s) <-> sections n.
Proof.
  split.
  - intros [s H]. destruct n as [| | | | |l|]; cbn [y_store] in H; try discriminate; [left; reflexivity|right].
    exists l. split; [reflexivity|].
    assert (Forall (fun e => exists v, y_section (snd e) = Some v) l) as HF.
    { clear -H. revert m H. induction l as [|[k n] l IH]; intros m; cbn [y_entries]; [constructor|].
      destruct (y_section n) as [v|] eqn:He; [|discriminate]. intros H. constructor; [exists v; exact He|eapply IH; exact H]. }
    eapply Forall_impl; [|exact HF]. intros e He. apply y_section_total. exact He.
  - intros [->|[l [-> H]]]; cbn [y_store]; [eexists; reflexivity|]. apply y_entries_some.
    eapply Forall_impl; [|exact H]. intros e He. apply y_section_total. exact He.
Qed.

(** the five keys *)
Lemma keys_text : key_host = text "host" /\ key_port = text "port" /\ key_conn_ttl = text "conn_ttl" /\
  key_log_level = text "log_level" /\ key_storage = text "storage".
Proof. repeat split. Qed.

Definition kind_of (k : gostr) (n : ynode) : Prop := forall kind, parameter k kind -> kind n.

Lemma key_cases (k : gostr) : k = text "host" \/ k = text "port" \/ k = text "conn_ttl" \/ k = text "log_level" \/ k = text "storage" \/
  (str_eqb k key_host = false /\ str_eqb k key_port = false /\ str_eqb k key_conn_ttl = false /\
   str_eqb k key_log_level = false /\ str_eqb k key_storage = false).
Proof.
  destruct (str_eqb k key_host) eqn:H1; [apply str_eqb_eq in H1; subst; tauto|].
  destruct (str_eqb k key_port) eqn:H2; [apply str_eqb_eq in H2; subst; tauto|].
  destruct (str_eqb k key_conn_ttl) eqn:H3; [apply str_eqb_eq in H3; subst; tauto|].
  destruct (str_eqb k key_log_level) eqn:H4; [apply str_eqb_eq in H4; subst; tauto|].
  destruct (str_eqb k key_storage) eqn:H5; [apply str_eqb_eq in H5; subst; tauto|]. tauto.
Qed.
Lemma str_neqb k k' : str_eqb k k' = false -> k <> k'.
Proof. intros H ->. assert (str_eqb k' k' = true) by (apply str_eqb_eq; reflexivity). congruence. Qed.

Lemma y_field_host c n : y_field c (text "host") n = match y_string n with None => None
    | Some v => Some (mkConfig (mkSettings v (cfPort (cg_settings c)) (cfConnTTL (cg_settings c)) (cfLogLevel (cg_settings c))) (cg_store c)) end.
Proof. reflexivity. Qed.
Lemma y_field_port c n : y_field c (text "port") n = match y_string n with None => None
    | Some v => Some (mkConfig (mkSettings (cfHost (cg_settings c)) v (cfConnTTL (cg_settings c)) (cfLogLevel (cg_settings c))) (cg_store c)) end.
Proof. reflexivity. Qed.
Lemma y_field_ttl c n : y_field c (text "conn_ttl") n = match y_int n with None => None
    | Some v => Some (mkConfig (mkSettings (cfHost (cg_settings c)) (cfPort (cg_settings c)) v (cfLogLevel (cg_settings c))) (cg_store c)) end.
Proof. reflexivity. Qed.
Lemma y_field_level c n : y_field c (text "log_level") n = match y_string n with None => None
    | Some v => Some (mkConfig (mkSettings (cfHost (cg_settings c)) (cfPort (cg_settings c)) (cfConnTTL (cg_settings c)) v) (cg_store c)) end.
Proof. reflexivity. Qed.
Lemma y_field_storage c n : y_field c (text "storage") n = match y_store (cg_store c) n with None => None
    | Some m => Some (mkConfig (cg_settings c) m) end.
Proof. reflexivity. Qed.
Definition unknown (k : gostr) : Prop := forall kind, ~ parameter k kind.
Lemma unknown_false k : unknown k -> str_eqb k key_host = false /\ str_eqb k key_port = false /\ str_eqb k key_conn_ttl = false /\
   str_eqb k key_log_level = false /\ str_eqb k key_storage = false.
Proof.
  intros H. destruct (key_cases k) as [->|[->|[->|[->|[->|Hk]]]]]; [edestruct H; constructor .. |exact Hk].
Qed.
Lemma y_field_other c k n : str_eqb k key_host = false /\ str_eqb k key_port = false /\ str_eqb k key_conn_ttl = false /\
   str_eqb k key_log_level = false /\ str_eqb k key_storage = false -> y_field c k n = Some c.
Proof. intros (H1 & H2 & H3 & H4 & H5). unfold y_field. rewrite H1, H2, H3, H4, H5. reflexivity. Qed.

Lemma other_kind k n : str_eqb k key_host = false /\ str_eqb k key_port = false /\ str_eqb k key_conn_ttl = false /\
   str_eqb k key_log_level = false /\ str_eqb k key_storage = false -> kind_of k n.
Proof.
  intros (H1 & H2 & H3 & H4 & H5) kind Hp. destruct keys_text as (K1 & K2 & K3 & K4 & K5).
  apply str_neqb in H1, H2, H3, H4, H5. rewrite K1 in H1. rewrite K2 in H2. rewrite K3 in H3. rewrite K4 in H4. rewrite K5 in H5.
  destruct Hp; congruence.
Qed.

Lemma par_inv k kind : parameter k kind ->
  (k = text "host" /\ kind = scalar) \/ (k = text "port" /\ kind = scalar) \/ (k = text "conn_ttl" /\ kind = number) \/
  (k = text "log_level" /\ kind = scalar) \/ (k = text "storage" /\ kind = sections).
Proof. intros []; tauto. Qed.

Ltac only_par := let kind := fresh in let Hp := fresh in
  intros kind Hp; apply par_inv in Hp as [[? ->]|[[? ->]|[[? ->]|[[? ->]|[? ->]]]]]; try discriminate.

Lemma y_field_total c k n : (exists c', y_field c k n = Some c') <-> kind_of k n.
Proof.
  destruct (key_cases k) as [->|[->|[->|[->|[->|Hk]]]]].
  - rewrite y_field_host. split.
    + intros [c' H]. only_par. destruct (y_string n) eqn:He; [|discriminate]. apply y_string_says in He. eexists; exact He.
    + intros H. destruct (H _ par_host) as [s Hs]. apply y_string_says in Hs. rewrite Hs. eexists; reflexivity.
  - rewrite y_field_port. split.
    + intros [c' H]. only_par. destruct (y_string n) eqn:He; [|discriminate]. apply y_string_says in He. eexists; exact He.
    + intros H. destruct (H _ par_port) as [s Hs]. apply y_string_says in Hs. rewrite Hs. eexists; reflexivity.
  - rewrite y_field_ttl. split.
    + intros [c' H]. only_par. destruct (y_int n) eqn:He; [|discriminate]. apply y_int_counts in He. eexists; exact He.
    + intros H. destruct (H _ par_conn_ttl) as [s Hs]. apply y_int_counts in Hs. rewrite Hs. eexists; reflexivity.
  - rewrite y_field_level. split.
    + intros [c' H]. only_par. destruct (y_string n) eqn:He; [|discriminate]. apply y_string_says in He. eexists; exact He.
    + intros H. destruct (H _ par_log_level) as [s Hs]. apply y_string_says in Hs. rewrite Hs. eexists; reflexivity.
  - rewrite y_field_storage. split.
    + intros [c' H]. only_par. destruct (y_store (cg_store c) n) eqn:He; [|discriminate]. apply (y_store_total (cg_store c)). eexists; exact He.
    + intros H. specialize (H _ par_storage). apply (y_store_total (cg_store c)) in H as [m Hm]. rewrite Hm. eexists; reflexivity.
  - rewrite y_field_other by exact Hk. split; [intros _; apply other_kind; exact Hk|eexists; reflexivity].
Qed.

Lemma well_typed_cons k n l : well_typed ((k, n) :: l) <-> kind_of k n /\ well_typed l.
Proof.
  split.
  - intros H. split; [intros kind Hp; apply (H k n kind); [left; reflexivity|exact Hp]|].
    intros k' n' kind Hin Hp. apply (H k' n' kind); [right; exact Hin|exact Hp].
  - intros [H1 H2] k' n' kind [[= <- <-]|Hin] Hp; [apply H1; exact Hp|apply (H2 k' n' kind); assumption].
Qed.
Lemma y_fields_total l : forall c, (exists c', y_fields c l = Some c') <-> well_typed l.
Proof.
  induction l as [|[k n] l IH]; intros c; cbn [y_fields].
  - split; [intros _ k n kind []|eexists; reflexivity].
  - rewrite well_typed_cons, <- (y_field_total c k n). destruct (y_field c k n) as [c'|].
    + rewrite IH. split; [intros H; split; [eexists; reflexivity|exact H]|intros [_ H]; exact H].
    + split; [intros [? [=]]|intros [[? [=]] _]].
Qed.

(** ** what the settings are *)
Definition inv (l : list (gostr * ynode)) (c : config) : Prop :=
  text_of l "host" (cfHost (cg_settings c)) /\ text_of l "port" (cfPort (cg_settings c)) /\
  number_of l "conn_ttl" (cfConnTTL (cg_settings c)) /\ text_of l "log_level" (cfLogLevel (cg_settings c)) /\
  exists e, configured l e /\ holds section_says e (cg_store c).

Lemma text_of_other l k n x s : k <> text x -> text_of (l ++ [(k, n)]) x s <-> text_of l x s.
Proof. intros H. unfold text_of. rewrite given_snoc. destruct (list_eq_dec N.eq_dec k (text x)); [congruence|tauto]. Qed.
Lemma number_of_other l k n x s : k <> text x -> number_of (l ++ [(k, n)]) x s <-> number_of l x s.
Proof. intros H. unfold number_of. rewrite given_snoc. destruct (list_eq_dec N.eq_dec k (text x)); [congruence|tauto]. Qed.
Lemma text_of_this l n x s : text_of (l ++ [(text x, n)]) x s <-> says n s.
Proof. unfold text_of. rewrite given_snoc. destruct (list_eq_dec N.eq_dec (text x) (text x)); [tauto|congruence]. Qed.
Lemma number_of_this l n x s : number_of (l ++ [(text x, n)]) x s <-> counts n s.
Proof. unfold number_of. rewrite given_snoc. destruct (list_eq_dec N.eq_dec (text x) (text x)); [tauto|congruence]. Qed.

Ltac others := try rewrite (text_of_other _ _ _ "host") by discriminate; try rewrite (text_of_other _ _ _ "port") by discriminate;
  try rewrite (text_of_other _ _ _ "log_level") by discriminate; try rewrite number_of_other by discriminate.

Lemma inv_step l c k n c' : inv l c -> y_field c k n = Some c' -> inv (l ++ [(k, n)]) c'.
Proof.
  intros (Hh & Hp & Ht & Hl & e & He1 & He2).
  destruct (key_cases k) as [->|[->|[->|[->|[->|Hk]]]]].
  - rewrite y_field_host. destruct (y_string n) as [v|] eqn:Hv; [|discriminate]. intros [= <-]. apply y_string_says in Hv.
    unfold inv. cbn [cg_settings cg_store cfHost cfPort cfConnTTL cfLogLevel]. others. rewrite text_of_this.
    split; [exact Hv|]. split; [exact Hp|]. split; [exact Ht|]. split; [exact Hl|]. exists e. split; [constructor; [exact He1|discriminate]|exact He2].
  - rewrite y_field_port. destruct (y_string n) as [v|] eqn:Hv; [|discriminate]. intros [= <-]. apply y_string_says in Hv.
    unfold inv. cbn [cg_settings cg_store cfHost cfPort cfConnTTL cfLogLevel]. others. rewrite text_of_this.
    split; [exact Hh|]. split; [exact Hv|]. split; [exact Ht|]. split; [exact Hl|]. exists e. split; [constructor; [exact He1|discriminate]|exact He2].
  - rewrite y_field_ttl. destruct (y_int n) as [v|] eqn:Hv; [|discriminate]. intros [= <-]. apply y_int_counts in Hv.
    unfold inv. cbn [cg_settings cg_store cfHost cfPort cfConnTTL cfLogLevel]. others. rewrite number_of_this.
    split; [exact Hh|]. split; [exact Hp|]. split; [exact Hv|]. split; [exact Hl|]. exists e. split; [constructor; [exact He1|discriminate]|exact He2].
  - rewrite y_field_level. destruct (y_string n) as [v|] eqn:Hv; [|discriminate]. intros [= <-]. apply y_string_says in Hv.
    unfold inv. cbn [cg_settings cg_store cfHost cfPort cfConnTTL cfLogLevel]. others. rewrite text_of_this.
    split; [exact Hh|]. split; [exact Hp|]. split; [exact Ht|]. split; [exact Hv|]. exists e. split; [constructor; [exact He1|discriminate]|exact He2].
  - rewrite y_field_storage. destruct (y_store (cg_store c) n) as [m|] eqn:Hv; [|discriminate]. intros [= <-].
    unfold inv. cbn [cg_settings cg_store cfHost cfPort cfConnTTL cfLogLevel]. others.
    split; [exact Hh|]. split; [exact Hp|]. split; [exact Ht|]. split; [exact Hl|].
    destruct n as [| | | | |s|]; cbn [y_store] in Hv; try discriminate.
    + injection Hv as <-. exists []. split; [eapply conf_null; exact He1|apply holds_nil].
    + exists (e ++ s). split; [constructor; exact He1|].
      exact (proj1 (y_entries_holds y_section section_says y_section_says s e (cg_store c) m He2 Hv)).
  - rewrite y_field_other by exact Hk. intros [= <-]. destruct Hk as (H1 & H2 & H3 & H4 & H5). destruct keys_text as (K1 & K2 & K3 & K4 & K5).
    apply str_neqb in H1, H2, H3, H4, H5. rewrite K1 in H1. rewrite K2 in H2. rewrite K3 in H3. rewrite K4 in H4. rewrite K5 in H5.
    unfold inv. rewrite !text_of_other, number_of_other by assumption.
    split; [exact Hh|]. split; [exact Hp|]. split; [exact Ht|]. split; [exact Hl|]. exists e. split; [constructor; [exact He1|exact H5]|exact He2].
Qed.
Lemma inv_run l : forall l0 c c', inv l0 c -> y_fields c l = Some c' -> inv (l0 ++ l) c'.
Proof.
  induction l as [|[k n] l IH]; intros l0 c c' Hi; cbn [y_fields]; [intros [= <-]; rewrite app_nil_r; exact Hi|].
  destruct (y_field c k n) as [c1|] eqn:H1; [|discriminate]. intros H.
  specialize (IH (l0 ++ [(k, n)]) c1 c' (inv_step _ _ _ _ _ Hi H1) H). rewrite <- app_assoc in IH. exact IH.
Qed.
Lemma inv0 : inv [] config0.
Proof.
  repeat split; try reflexivity. exists []. split; [constructor|apply holds_nil].
Qed.

Lemma y_fields_app l l' : forall c, y_fields c (l ++ l') = match y_fields c l with Some c' => y_fields c' l' | None => None end.
Proof.
  induction l as [|[k n] l IH]; intros c; cbn [y_fields app]; [reflexivity|]. destruct (y_field c k n); [apply IH|reflexivity].
Qed.

(** ** writing *)
Lemma entries_written {A} (elem : ynode -> option A) (w : A -> ynode) l : forall m,
  Forall (fun e => elem (w (snd e)) = Some (snd e)) l -> NoDup (map fst (m ++ l)) ->
  y_entries elem m (map (fun e => (fst e, w (snd e))) l) = Some (m ++ l).
Proof.
  induction l as [|[k v] l IH]; intros m Hf Hn; cbn [map y_entries fst snd]; [rewrite app_nil_r; reflexivity|].
  inversion Hf as [|? ? Hv Hf']; subst. cbn [snd] in Hv. rewrite Hv. rewrite map_app in Hn. cbn [map fst] in Hn.
  rewrite map_set_new by (apply NoDup_remove_2 in Hn; intros H; apply Hn, in_or_app; left; exact H).
  rewrite IH; [rewrite <- app_assoc; reflexivity|exact Hf'|].
  rewrite <- app_assoc, map_app. exact Hn.
Qed.
Lemma section_written s : (forall m, s = Some m -> NoDup (map fst m)) -> y_section (write_section s) = Some s.
Proof.
  destruct s as [m|]; intros H; [|reflexivity]. cbn [write_section y_section].
  pose proof (entries_written y_string YStr m []) as He. cbn [app] in He. rewrite He; [reflexivity| |apply H; reflexivity].
  apply Forall_forall. reflexivity.
Qed.
Lemma config_written t c : config_value c -> config_new (Some (written t c)) = Some c.
Proof.
  intros (Hz & Hn & Hf). destruct c as [[h p z l] st]. cbn [cg_settings cg_store cfHost cfPort cfConnTTL cfLogLevel] in *.
  unfold written, config_new. cbn [cg_settings cg_store cfHost cfPort cfConnTTL cfLogLevel y_fields].
  rewrite y_field_host. cbn [y_string]. rewrite y_field_port. cbn [y_string]. rewrite y_field_ttl.
  rewrite (proj2 (y_int_counts (YInt z t) z)) by (constructor; exact Hz). rewrite y_field_level. cbn [y_string].
  rewrite y_field_storage. cbn [cg_settings cg_store cfHost cfPort cfConnTTL cfLogLevel config0 y_store].
  pose proof (entries_written y_section write_section st []) as He. cbn [app] in He. rewrite He; [reflexivity| |exact Hn].
  eapply Forall_impl; [|exact Hf]. intros e H. apply section_written. exact H.
Qed.

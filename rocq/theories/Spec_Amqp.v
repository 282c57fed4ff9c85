(** * Spec_Amqp: settings that can stand in a URL as they are. *)
From Coq Require Import String.
From Verif Require Import GoBase Storage Connectors Amqp Spec_Storage.

Definition letter_or_digit (c : N) : Prop := (97 <= c <= 122) \/ (65 <= c <= 90) \/ (48 <= c <= 57).

(** bytes that a URL takes for themselves in a password: letters, digits and
    - . _ : ~ ! $ & ' ( ) * + , ; = @; in a user name the colon is not one *)
Definition bare_password (v : gostr) : Prop :=
  Forall (fun c => letter_or_digit c \/ In c (text "-._:~!$&'()*+,;=@")) v.
Definition bare_user (v : gostr) : Prop := bare_password v /\ ~ In 58 v.

(** an ordinary host name or address: letters, digits, dots, hyphens, underscores *)
Definition host_name (v : gostr) : Prop :=
  v <> [] /\ Forall (fun c => letter_or_digit c \/ In c (text ".-_")) v.
(** a port number below 2^31 *)
Definition port_number (v : gostr) : Prop :=
  v <> [] /\ Forall (fun c => 48 <= c <= 57) v /\ (digits_value v < 2 ^ 31)%Z.

(** the client connects with the settings of the section *)
Definition connects_with (m : list (gostr * gostr)) (u : amqp_uri) : Prop :=
  am_user u = setting m "user" /\ am_password u = setting m "password" /\
  am_host u = setting m "host" /\ am_port u = digits_value (setting m "port") /\ am_vhost u = text "/".

(** Percent-encoding (RFC 3986, section 2.1): [v] is a way of writing [w] in a URL. *)
Definition hex_digit (h n : N) : Prop :=
  (n < 10 /\ h = 48 + n) \/ (10 <= n < 16 /\ (h = 55 + n \/ h = 87 + n)).
Inductive stands_for : gostr -> gostr -> Prop :=
| sf_nil : stands_for [] []
| sf_plain c v w : letter_or_digit c \/ In c (text "-._:~!$&'()*+,;=@") -> stands_for v w -> stands_for (c :: v) (c :: w)
| sf_escaped c h l v w : hex_digit h (c / 16) -> hex_digit l (c mod 16) -> c < 256 -> stands_for v w ->
    stands_for (37 :: h :: l :: v) (c :: w).

(** An IPv6 address as it is written: hexadecimal digits, colons and (for an
    embedded IPv4 address) dots. *)
Definition ip6_address (v : gostr) : Prop :=
  v <> [] /\ Forall (fun c => (48 <= c <= 57) \/ (65 <= c <= 70) \/ (97 <= c <= 102) \/ c = 58 \/ c = 46) v.

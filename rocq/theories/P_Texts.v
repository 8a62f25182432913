(** C64: which lines the readers take, and for what. *)
From Coq Require Import Strings.String List NArith ZArith Bool Lia.
From Verif Require Import GoBase GoTime Json Archive Netlink Inetdiag EventServer EventClient.
From Verif Require Import SpecJson SpecGrammar SpecDecode GrammarFacts SpellFacts StampFacts DecodeFacts.
Import ListNotations.
Local Open Scope list_scope.

(** json.Unmarshal reads the texts of JSON, up to 10000 arrays and objects inside one another. *)
Theorem C64_grammar : forall b j, Json.parse b = Some j <-> json_text j b.
Proof. exact parse_grammar. Qed.
Print Assumptions C64_grammar.

(** A line is a record exactly if it says so, and the record is the one that it says. *)
Theorem C64_record : forall b j r, json_text j b -> clear_record j -> (unmarshal b = Ret r <-> record_of j r).
Proof. intros b j r. apply unmarshal_says. Qed.
Print Assumptions C64_record.

(** The same for events *)
Theorem C64_event : forall b j e, json_text j b -> clear_event j -> (unmarshal_event b = Ret e <-> event_of_json j e).
Proof. intros b j e. apply unmarshal_event_says. Qed.
Print Assumptions C64_event.

(** A line that is not JSON is an error. *)
Theorem C64_not_json : forall b, (forall j, ~ json_text j b) -> unmarshal b = Fail ErrJSON /\ unmarshal_event b = Fail ErrJSON.
Proof. exact not_json_fails. Qed.
Print Assumptions C64_not_json.

(** There is always a record or an error, whatever the line is, and an error if nothing
    is a record that the line describes. *)
Theorem C64_no_record : forall b, (forall j, json_text j b -> clear_record j) ->
  (unmarshal b = Fail ErrJSON <-> forall j r, json_text j b -> ~ record_of j r).
Proof.
  intros b C. split.
  - intros F j r T R. apply (unmarshal_says j b r T (C j T)) in R. congruence.
  - intros N. destruct (unmarshal_total b) as [[r R]|F]; [|exact F]. exfalso. destruct (Json.parse b) as [j|] eqn:P.
    + apply parse_grammar in P. apply (N j r P). apply (unmarshal_says j b r P (C j P)), R.
    + unfold unmarshal in R. rewrite P in R. discriminate R.
Qed.
Print Assumptions C64_no_record.
Theorem C64_no_event : forall b, (forall j, json_text j b -> clear_event j) ->
  (unmarshal_event b = Fail ErrJSON <-> forall j e, json_text j b -> ~ event_of_json j e).
Proof.
  intros b C. split.
  - intros F j r T R. apply (unmarshal_event_says j b r T (C j T)) in R. congruence.
  - intros N. destruct (unmarshal_event_total b) as [[r R]|F]; [|exact F]. exfalso. destruct (Json.parse b) as [j|] eqn:P.
    + apply parse_grammar in P. apply (N j r P). apply (unmarshal_event_says j b r P (C j P)), R.
    + unfold unmarshal_event in R. rewrite P in R. discriminate R.
Qed.
Print Assumptions C64_no_event.

(** The parts: string literals, numbers, base64 and times *)
Theorem C64_literals : forall raw, chars raw -> forall s, unquote raw = s <-> spells raw s.
Proof. intros raw C s. apply unquote_spells, C. Qed.
Print Assumptions C64_literals.
Theorem C64_numbers : forall lo hi raw z, number raw -> (parse_int lo hi raw = Some z <-> signed_text raw z /\ (lo <= z <= hi)%Z).
Proof. intros lo hi raw z. apply parse_int_spec. Qed.
Print Assumptions C64_numbers.
Theorem C64_base64 : forall s b, Base64.b64_decode s = Some b <-> base64 s b.
Proof. exact base64_iff. Qed.
Print Assumptions C64_base64.
Theorem C64_times : forall raw t, Rfc3339.unmarshal_time raw = Some t <-> lax_stamp raw t.
Proof. exact unmarshal_time_iff. Qed.
Print Assumptions C64_times.
(** Every time of RFC 3339 is read, and as the instant that it stands for. *)
Theorem C64_rfc3339 : forall raw t, stamp raw t -> Rfc3339.unmarshal_time raw = Some t.
Proof. intros raw t S. apply unmarshal_time_iff, stamp_lax, S. Qed.
Print Assumptions C64_rfc3339.
(** But not only those are read: hours of one digit, a comma, and offsets of 99 hours. *)
Theorem C64_strict_refuted : ~ forall raw t, Rfc3339.unmarshal_time raw = Some t -> stamp raw t.
Proof.
  intros H. specialize (H (str "2020-01-01T1:00:00,5+99:99") 1577478060500000000%Z ltac:(vm_compute; reflexivity)).
  apply stamp_iff in H. vm_compute in H. discriminate H.
Qed.
Print Assumptions C64_strict_refuted.
Example c64_times : map Rfc3339.unmarshal_time
  [str "2020-02-29T23:59:59.5+01:30"; str "2020-02-29T3:59:59Z"; str "2020-02-29T03:59:59,25Z"; str "2020-02-29T03:59:59-24:60";
   str "2020-02-29T3:9:59Z"; str "2021-02-29T03:59:59Z"; str "2020-02-29T03:59:59,Z"; str "2020-02-29T03:59:59.Z"; str "2020-02-29T03:59:59";
   str "2020-02-29T24:00:00Z"; str "2020-02-00T1:00:00Z"; str "2020-2-29T03:59:59Z"; str "2020-02-29 03:59:59Z"; str "2020-02-29T03:59:60Z"]
  = [Some 1583015399500000000; Some 1582948799000000000; Some 1582948799250000000; Some (1582948799000000000 + 90000 * 1000000000);
     None; None; None; None; None; None; None; None; None; None]%Z.
Proof. vm_compute. reflexivity. Qed.

(** ** A line that no encoder writes: white space, members in another order, names in
    another case and with the long s and the Kelvin sign, a name that is unknown and
    occurs twice, an array of numbers, line ends and padding in base64, a surrogate
    pair, a time with an offset *)
Definition odd_line : bytes :=
  str " { ""x"" : [ ] , ""raWidm"" : [ 1 , null , 255 ] , ""Attribute" ++ [xc5; xbf] ++ str """ : [ ""A\nQ=="" , [ ] , null ] , ""x"" : {} , " ++
  str """metadata"" : { ""uuid"" : ""\ud83d\uDE00\u0041"" , ""Sequence"" : -0 , ""StartTime"" : null } , ""TIMESTAMP"" : ""2020-02-29T23:59:59.5+01:30"" } ".
Definition odd_record : archival :=
  mkar 1583015399500000000 (Some [x01; x00; xff]) [Some (mkslice [x01] []); Some (mkslice [] []); None]
    (Some (mkmeta ([xf0; x9f; x98; x80] ++ str "A") 0 zero_time)).
Example odd_read : unmarshal odd_line = Ret odd_record. Proof. vm_compute. reflexivity. Qed.

Ltac no_name := let K := fresh in intros K; apply called_iff in K;
  [vm_compute in K; discriminate K|repeat (constructor; [reflexivity|]); constructor|
   repeat (first [apply chars_end|apply chars_plain; [intros X; discriminate X|intros X; discriminate X|intros X; discriminate X|]])].
Ltac pairs_tac := repeat (first [apply FOP_nil|apply FOP_cons]); repeat (first [apply Forall_nil|apply Forall_cons]); cbn [fst]; intros [K1 K2]; revert K1 K2; first [intros K1 _; revert K1; no_name|intros _; no_name].
Ltac once_tac := unfold once; repeat (first [apply Forall_nil|apply Forall_cons]); pairs_tac.
Example odd_clear : exists j, json_text j odd_line /\ clear_record j.
Proof.
  destruct (Json.parse odd_line) as [j|] eqn:P; [|vm_compute in P; discriminate P]. exists j. split; [apply parse_grammar, P|].
  vm_compute in P. injection P as <-. intros l [= <-]. split; [once_tac|].
  intros k l' H. cbn [In] in H. repeat destruct H as [H|H]; try discriminate H; [| |destruct H].
  - injection H as <- <-. intros _. once_tac.
  - injection H as <- <-. intros _. once_tac.
Qed.

(** An event *)
Definition odd_event_line : bytes :=
  str "{""id"":{""COO" ++ [xe2; x84; xaa] ++ str "IE"":-9223372036854775808,""sport"":65535,""Interface"":4294967295},""event"":-1,""other"":1e5}".
Example odd_event : unmarshal_event odd_event_line = Ret (mkfe (-1) zero_time [] (Some (mksockid 65535 0 [] [] 4294967295 (-9223372036854775808)))).
Proof. vm_compute. reflexivity. Qed.
Example odd_event_clear : exists j, json_text j odd_event_line /\ clear_event j.
Proof.
  destruct (Json.parse odd_event_line) as [j|] eqn:P; [|vm_compute in P; discriminate P]. exists j. split; [apply parse_grammar, P|].
  vm_compute in P. injection P as <-. intros l [= <-]. split; [once_tac|].
  intros k l' H. cbn [In] in H. repeat destruct H as [H|H]; try discriminate H; [|destruct H].
  injection H as <- <-. intros _. once_tac.
Qed.
(** Lines that are not JSON, and JSON that is not a record or an event *)
Example not_json_lines : map unmarshal [[]; str "{"; str "{}x"; str "{""x"":01}"; str "{""x"":1.}"; str "{""x"":.5}"; str "{""x"":1,}"; str "{""x"" 1}"; str "[1 2]"; str "nul";
  str "{""x"":""\x""}"; str "{""x"":""\u12G4""}"; x7b :: x22 :: x09 :: str """:1}"; str "{x:1}"] = repeat (Fail ErrJSON) 14.
Proof. vm_compute. reflexivity. Qed.
Example not_records : map unmarshal [str "1"; str "[]"; str "{""Timestamp"":1}"; str "{""Timestamp"":""2021-02-29T00:00:00Z""}"; str "{""Timestamp"":""2020-01-01T24:00:00Z""}";
  str "{""RawIDM"":""A""}"; str "{""RawIDM"":[256]}"; str "{""Attributes"":[1]}"; str "{""Metadata"":[]}"; str "{""Metadata"":{""Sequence"":1.0}}";
  str "{""Metadata"":{""Sequence"":9223372036854775808}}"; str "{""Metadata"":{""UUID"":5}}"] = repeat (Fail ErrJSON) 12.
Proof. vm_compute. reflexivity. Qed.
Example not_events : map unmarshal_event [str "{""ID"":{""SPort"":65536}}"; str "{""ID"":{""SPort"":-0}}"; str "{""Event"":true}"] = repeat (Fail ErrJSON) 3.
Proof. vm_compute. reflexivity. Qed.
(** 10000 arrays inside one another, and one more *)
Definition nested (n : N) : bytes := repeat x5b (N.to_nat n) ++ repeat x5d (N.to_nat n).
Example nested_10000 : (match Json.parse (nested 10000) with Some _ => true | None => false end, Json.parse (nested 10001)) = (true, None).
Proof. vm_compute. reflexivity. Qed.

(** [clear_event] is needed: of two members with the name of a field the last one
    counts. *)
Theorem C64_twice_refuted : ~ forall b j e, json_text j b -> (unmarshal_event b = Ret e <-> event_of_json j e).
Proof.
  intros H. set (l := [(str "UUID", JStr (str "a")); (str "uuid", JStr (str "b"))]).
  assert (T : json_text (JObj l) (str "{""UUID"":""a"",""uuid"":""b""}")) by (apply parse_grammar; vm_compute; reflexivity).
  assert (E : event_of_json (JObj l) (mkfe 0 zero_time (str "a") None)).
  { right. exists l. split; [reflexivity|]. repeat split.
    - left. split; [reflexivity|]. intros k v [[= <- <-]|[[= <- <-]|[]]]; no_name.
    - left. split; [reflexivity|]. intros k v [[= <- <-]|[[= <- <-]|[]]]; no_name.
    - right. exists (str "UUID"), (JStr (str "a")). split; [left; reflexivity|]. split.
      + apply called_iff; [repeat (constructor; [reflexivity|]); constructor| |vm_compute; reflexivity].
        repeat (first [apply chars_end|apply chars_plain; [intros X; discriminate X|intros X; discriminate X|intros X; discriminate X|]]).
      + right. exists (str "a"). split; [reflexivity|]. apply unquote_spells; [|vm_compute; reflexivity].
        repeat (first [apply chars_end|apply chars_plain; [intros X; discriminate X|intros X; discriminate X|intros X; discriminate X|]]).
    - left. split; [reflexivity|]. intros k v [[= <- <-]|[[= <- <-]|[]]]; no_name. }
  apply (H _ _ _ T) in E. vm_compute in E. discriminate E.
Qed.
Print Assumptions C64_twice_refuted.

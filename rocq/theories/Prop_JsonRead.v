(** C58: reading JSON. *)
From Coq Require Import ZArith NArith List Bool String Ascii Lia.
From Verif Require Import GoTime Text SpecText AstroMoon Cli JsonRead SpecJson P_JsonRead P_JsonMean P_JsonAgree.
Import ListNotations.
Local Open Scope string_scope.

(** The decoder reads exactly the JSON texts, and each in one way. *)
Theorem C58_grammar s v : read_json s = Some v <-> json_text v s.
Proof. apply read_json_spec. Qed.
Theorem C58_unambiguous s v v' : json_text v s -> json_text v' s -> v = v'.
Proof. intros H H'. apply read_json_spec in H, H'. congruence. Qed.
Example C58_grammar_example :
  read_json " [ {""a"" :-0.5E+3, ""é"":[ ]},true , null]
" = Some (VArr [VObj [("a", VNum "-0.5E+3"); ("é", VArr [])]; VBool true; VNull]) /\
  forallb (fun s => match read_json s with None => true | Some _ => false end)
    [""; "01"; "1."; ".5"; "+1"; "-"; "1e"; "[1,]"; "[,]"; "{""a""}"; "{a:1}"; "'a'"; """\x"""; """\u12"""; "nul"; "1 2"; "[1}"; String quote (String "010" (String quote ""))] = true.
Proof. vm_compute. auto. Qed.

(** What the library prints is a JSON text that means what was printed. *)
Theorem C58_printed j : exists v, read_json (print_json j) = Some v /\ value_means v j.
Proof.
  destruct (printed j) as [S M]. exists (embed j). split; [|exact M]. apply read_json_spec. exists "", (print_json j), "".
  split; [constructor|]. split; [exact S|]. split; [constructor|]. cbn [append]. symmetry. apply P_Text.app_nil.
Qed.
(** So is the output of the caldays command. *)
Theorem C58_caldays cfg fs now from to s : caldays_command cfg fs now from to = Some (Printed s) ->
  exists f t l j v, cli_init now from to = Some (f, t) /\ get_cal_days cfg fs f t = Some (Ok l) /\
    json_of_days l = Some j /\ read_json s = Some v /\ value_means v j.
Proof.
  unfold caldays_command. destruct (cli_init now from to) as [[f t]|]; [|discriminate]. destruct (get_cal_days cfg fs f t) as [[l|]|] eqn:G; try discriminate.
  destruct (json_of_days l) as [j|] eqn:J; [|discriminate]. intros E. assert (Es : s = print_json j ++ String (ascii_of_nat 10) "") by congruence. clear E. subst s.
  destruct (printed j) as [S M]. exists f, t, l, j, (embed j). repeat (split; [reflexivity || assumption|]). split; [|exact M].
  apply read_json_spec. exists "", (print_json j), (String (ascii_of_nat 10) ""). split; [constructor|]. split; [exact S|]. split; [|reflexivity].
  constructor; [cbn; tauto|constructor].
Qed.
(** Strings are decoded to the bytes meant, and times to the instant and offset meant; no other text is a time. *)
Theorem C58_strings raw s : chars raw -> (unquote None raw = s <-> string_means raw s).
Proof. intros C. symmetry. apply means_unquote. exact C. Qed.
Theorem C58_times s t : read_time s = Some t <-> time_means s t.
Proof. apply read_time_spec. Qed.
Theorem C58_time_round_trip t s : t_off t = 0%Z -> json_time t = Some (JStr s) -> read_time s = Some t.
Proof. intros O J. apply read_time_spec. exact (time_printed t s O J). Qed.
Example C58_times_example :
  read_time "2016-01-02T05:31:40+01:00" = Some (mkTime ((day_number 2016 1 2 * 86400 + 4 * 3600 + 31 * 60 + 40) * second_ns) 3600)%Z /\
  read_time "2016-02-29T00:00:00.25Z" = Some (mkTime (day_number 2016 2 29 * 86400 * second_ns + 250000000) 0)%Z /\
  forallb (fun s => match read_time s with None => true | Some _ => false end)
    ["2015-02-29T00:00:00Z"; "2016-02-28T24:00:00Z"; "2016-02-28T00:60:00Z"; "2016-02-28T00:00:60Z"; "2016-02-28"; "2016-02-28T00:00:00"; "2016-02-28 00:00:00Z"; "2016-02-28T00:00:00.Z"] = true /\
  unquote None "caf\u00e9 \uD83C\udf15 \n \ud800" = "café 🌕 
 �" /\ unquote None "\ud800\ud83c\udf15\udf15\ud83c\u0041\ud83c" = "�🌕��A�".
Proof. vm_compute. auto. Qed.

(** A response is decoded field by field from the members that name it, without regard to order, case
    and unknown members; it is refused exactly if the text is not JSON or such a member has the wrong type. *)
Theorem C58_decoded s p : unmarshal s = Some p <-> exists v, json_text v s /\ response_fits string_means v /\ response_value string_means v p.
Proof.
  unfold unmarshal. split.
  - destruct (read_json s) as [v|] eqn:R; [|discriminate]. intros H. apply read_json_spec in R. exists v. split; [exact R|].
    split; [apply (response_fit v s R)|apply (response_means v s p R); apply response_sound; exact H].
    apply (response_accept (mkAerisResp false ("", "") [])). congruence.
  - intros (v & J & F & V). apply (response_fit v s J) in F. apply (response_means v s p J) in V. apply read_json_spec in J. rewrite J. apply (response_accept (mkAerisResp false ("", "") [])) in F.
    destruct (into_struct set_resp (mkAerisResp false ("", "") []) v) as [q|] eqn:E; [|congruence]. f_equal. apply (response_unique v); [apply response_sound; exact E|exact V].
Qed.
Theorem C58_accepted s : unmarshal s <> None <-> exists v, json_text v s /\ response_fits string_means v.
Proof.
  unfold unmarshal. destruct (read_json s) as [v|] eqn:R.
  - pose proof (proj1 (read_json_spec v s) R) as J. rewrite response_accept, (response_fit v s J). split.
    + intros H. exists v. split; assumption.
    + intros (v' & J' & H). apply read_json_spec in J'. congruence.
  - split; [congruence|]. intros (v' & J & _). apply read_json_spec in J. congruence.
Qed.
Example C58_decoded_example :
  unmarshal "{""RESPONSE"":[{""Code"":3,""code"":null,""x"":[1],""dateTimeISO"":""1999-12-31T23:59:59Z""},null],""error"":{""code"":""a""},""error"":{""description"":""b""},""ſuccess"":true}"
  = Some (mkAerisResp true ("a", "b") [mkAerisRecord 0 (mkTime ((day_number 2000 1 1 * 86400 - 1) * second_ns)%Z 0) 3 ""; mkAerisRecord 0 (mkTime 0 0) 0 ""]) /\
  unmarshal "{""response"":[{""code"":3.0}]}" = None /\ unmarshal "{""response"":[{""code"":""3""}]}" = None /\
  unmarshal "{""response"":[{""code"":9223372036854775808}]}" = None /\ unmarshal "{""success"":1}" = None /\ unmarshal "[]" = None.
Proof. vm_compute. repeat split. Qed.

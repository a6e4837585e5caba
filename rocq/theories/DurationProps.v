(** * Property theorems C01-C03: duration texts *)

From Coq Require Import List ZArith Ascii String.
From Verif Require Import DurationModel DurationSpec DurationProofs.
Import ListNotations.

(** C01: for every text whose numbers fit an int, the parser accepts the
    text exactly when it is a phrase of the documented grammar, and
    reports a parse error otherwise (never undefined behaviour). *)
Theorem duration_accepted_iff : forall t, numbers_fit t ->
  ((exists x, parse_duration t = Parsed x) <->
   (exists ph, phrase_ok ph /\ phrase_text ph = t)) /\
  ((forall ph, phrase_ok ph -> phrase_text ph <> t) ->
   parse_duration t = ParseError).
Proof. exact accepts_iff. Qed.
Print Assumptions duration_accepted_iff.

(** C01, without the size condition: whatever is accepted is a phrase. *)
Theorem duration_accepted_only_phrases : forall t x,
  parse_duration t = Parsed x ->
  exists ph, phrase_ok ph /\ phrase_text ph = t.
Proof. exact parsed_is_phrase. Qed.
Print Assumptions duration_accepted_only_phrases.

(** "2 h and 15 minutes" *)
Definition ex_phrase : phrase :=
  (Item ["2"%char] [" "%char] "h" Hour,
   [(list_ascii_of_string " and ",
     Item (list_ascii_of_string "15") [" "%char] "minutes" Minute)]).

Example ex_phrase_ok : phrase_ok ex_phrase /\ counts_fit ex_phrase /\
  separated ex_phrase /\ fully_separated ex_phrase /\
  phrase_text ex_phrase = list_ascii_of_string "2 h and 15 minutes".
Proof.
  split; [|split; [|split; [|split]]].
  - split.
    + constructor; [|constructor; [|constructor]].
      * split; [discriminate|]. split; [reflexivity|]. split; [reflexivity|].
        left. cbn. tauto.
      * split; [discriminate|]. split; [reflexivity|]. split; [reflexivity|].
        right. split; [cbn; tauto|discriminate].
    + constructor; [|constructor]. right. exists [" "%char], [" "%char].
      repeat split; discriminate.
  - constructor; [|constructor; [|constructor]]; vm_compute; discriminate.
  - cbn. constructor.
  - constructor; [discriminate|constructor].
  - reflexivity.
Qed.

Example ex_numbers_fit : numbers_fit (list_ascii_of_string "9 s").
Proof.
  intros a ds b E Hds.
  assert (L : ds = [] \/ ds = ["9"%char]).
  { destruct a as [|a0 [|a1 [|a2 [|a3 a]]]]; cbn in E;
      destruct ds as [|d0 [|d1 [|d2 [|d3 ds]]]]; cbn in E; auto;
      inversion E; subst; try discriminate Hds; auto;
      destruct a; discriminate. }
  destruct L as [-> | ->]; vm_compute; discriminate.
Qed.

Example ex_not_a_phrase : forall x,
  parse_duration (list_ascii_of_string "5sec") <> Parsed x.
Proof. intro x. vm_compute. discriminate. Qed.

(** C02 as stated is false: items after the first that are joined to their
    successor without a separator are charged with the wrong count.
    "1h2m3s" is read as 1 h + 3 min + 3 s. *)
Theorem duration_value_refuted : exists ph x,
  phrase_ok ph /\ counts_fit ph /\
  phrase_text ph = list_ascii_of_string "1h2m3s" /\
  parse_duration (phrase_text ph) = Parsed x /\ x <> phrase_seconds ph.
Proof.
  exists (Item ["1"%char] [] "h" Hour,
          [([], Item ["2"%char] [] "m" Minute);
           ([], Item ["3"%char] [] "s" Second)]), 3783%Z.
  split; [|split; [|split; [|split]]].
  - split.
    + repeat (constructor; [split; [discriminate|]; split; [reflexivity|];
        split; [reflexivity|]; left; cbn; tauto|]). constructor.
    + repeat (constructor; [left; reflexivity|]). constructor.
  - repeat (constructor; [vm_compute; discriminate|]). constructor.
  - reflexivity.
  - vm_compute. reflexivity.
  - vm_compute. discriminate.
Qed.
Print Assumptions duration_value_refuted.

(** C02, proved part: the value is the sum of the items whenever each item
    after the first is separated from its successor.
    Missing: texts with three or more items of which a non-first one is
    glued to its successor (false, see [duration_value_refuted]). *)
Theorem duration_value_partial : forall ph,
  phrase_ok ph -> counts_fit ph -> separated ph ->
  parse_duration (phrase_text ph) = Parsed (phrase_seconds ph).
Proof. exact value_separated. Qed.
Print Assumptions duration_value_partial.

Example duration_value_partial_nonvacuous :
  parse_duration (phrase_text ex_phrase) = Parsed 8100%Z.
Proof. vm_compute. reflexivity. Qed.

(** C02, exact description of what is computed for every phrase. *)
Theorem duration_value_charged : forall ph,
  phrase_ok ph -> counts_fit ph ->
  parse_duration (phrase_text ph) = Parsed (charged_seconds ph).
Proof. exact parse_phrase. Qed.
Print Assumptions duration_value_charged.

(** C03 as stated is false, even with a non-empty separator: "1h" and
    "2m3s" are 3600 and 123 seconds, but "1h 2m3s" is 3783. *)
Theorem duration_compose_refuted : exists a s b x y z,
  separator_ok s /\ s <> [] /\
  parse_duration a = Parsed x /\ parse_duration b = Parsed y /\
  parse_duration (a ++ s ++ b) = Parsed z /\ z <> (x + y)%Z.
Proof.
  exists (list_ascii_of_string "1h"), (list_ascii_of_string " "),
    (list_ascii_of_string "2m3s"), 3600%Z, 123%Z, 3783%Z.
  split; [left; reflexivity|]. split; [discriminate|].
  split; [vm_compute; reflexivity|]. split; [vm_compute; reflexivity|].
  split; [vm_compute; reflexivity|]. discriminate.
Qed.
Print Assumptions duration_compose_refuted.

(** C03, proved part: concatenation is always accepted ... *)
Theorem duration_compose_accepted : forall a b s x y,
  numbers_fit (a ++ s ++ b) -> separator_ok s ->
  parse_duration a = Parsed x -> parse_duration b = Parsed y ->
  exists z, parse_duration (a ++ s ++ b) = Parsed z.
Proof. exact compose_accepts. Qed.
Print Assumptions duration_compose_accepted.

Example duration_compose_accepted_nonvacuous :
  numbers_fit (list_ascii_of_string "9" ++ [" "%char] ++ list_ascii_of_string "s") /\
  separator_ok [" "%char] /\
  parse_duration (list_ascii_of_string "9 s") = Parsed 9%Z.
Proof.
  split; [exact ex_numbers_fit|]. split; [left; reflexivity|].
  vm_compute. reflexivity.
Qed.

(** ... and the values add up when the items of the second part are
    separated.  Missing: second parts with glued items (false, see
    [duration_compose_refuted]). *)
Theorem duration_compose_partial : forall p s q,
  phrase_ok p -> phrase_ok q -> separator_ok s ->
  counts_fit p -> counts_fit q ->
  separated p -> fully_separated q -> (s <> [] \/ snd p = []) ->
  parse_duration (phrase_text p) = Parsed (phrase_seconds p) /\
  parse_duration (phrase_text q) = Parsed (phrase_seconds q) /\
  parse_duration (phrase_text p ++ s ++ phrase_text q) =
    Parsed (phrase_seconds p + phrase_seconds q)%Z.
Proof. exact compose_separated. Qed.
Print Assumptions duration_compose_partial.

Example duration_compose_partial_nonvacuous :
  parse_duration (phrase_text ex_phrase ++ [" "%char] ++ phrase_text ex_phrase)
  = Parsed 16200%Z.
Proof. vm_compute. reflexivity. Qed.

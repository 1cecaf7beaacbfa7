(** C109: a JSON view answers with the JSON of what its action returns. *)
From Coq Require Import List NArith ZArith Bool.
From Verif Require Import PyStr ModelQuote ModelHeaders SpecHeaders ModelResponse SpecResponse ModelRespond SpecRespond ModelJson SpecJson ProofRespond ProofJson.
Import ListNotations.
Open Scope N_scope.

(** Whatever can be sent as JSON arrives as it was, however the view lays it out, with its
    type and its length in the headers. *)
Theorem C109_value v w d : received v w -> v <> JNull -> exists r b,
  json_view (Some d) (Ok (RValue v)) = Ok r /\ st_code (rs_status r) = 200%Z /\ rs_body r = BSeq [IBytes b]
  /\ loads b = Some w
  /\ values_of (lit "Content-Type") (rs_headers r) [lit "application/json"]
  /\ values_of (lit "Content-Length") (rs_headers r) [zdec (Z.of_nat (length b))].
Proof. exact (view_value v w d). Qed.
Print Assumptions C109_value.
Definition sample : json :=
  JDict [(KStr (lit "name"), JStr [197; 98; 34; 128512]);
         (KInt (-12), JList [JNull; JBool true; JInt 7; JDict []; JList []]);
         (KNull, JDict [(KBool false, JInt 0)])].
Definition sample_read : json :=
  JDict [(KStr (lit "name"), JStr [197; 98; 34; 128512]);
         (KStr (lit "-12"), JList [JNull; JBool true; JInt 7; JDict []; JList []]);
         (KStr (lit "null"), JDict [(KStr (lit "false"), JInt 0)])].
Example C109_value_example : received sample sample_read.
Proof.
  eapply rc_dict.
  - eapply rd_cons; [apply nm_str|apply rc_str|eapply rd_cons; [exact (nm_int (-12))|apply rc_list|eapply rd_cons; [apply nm_null|eapply rc_dict|apply rd_nil]]].
    + repeat (apply Forall_cons; [split; [reflexivity|intros [A B]; vm_compute in A, B; congruence]|]). apply Forall_nil.
    + repeat (apply Forall_cons; [split; [reflexivity|intros [A B]; vm_compute in A, B; congruence]|]). apply Forall_nil.
    + repeat constructor; eapply rc_dict; constructor.
    + eapply rd_cons; [apply nm_false|apply rc_int|apply rd_nil].
    + repeat constructor. intros [].
  - repeat constructor; cbn; intuition discriminate.
Qed.
Example C109_value_text : dumps None 0 sample =
  Ok (lit "{""name"":""\u00c5b\""\ud83d\ude00"",""-12"":[null,true,7,{},[]],""null"":{""false"":0}}").
Proof. vm_compute. reflexivity. Qed.
Example C109_value_debug : dumps (Some 4%nat) 0 (JDict [(KStr (lit "a"), JList [JInt 1; JInt 2])]) =
  Ok (lit "{" ++ [10] ++ lit "    ""a"": [" ++ [10] ++ lit "        1," ++ [10] ++ lit "        2" ++ [10] ++ lit "    ]" ++ [10] ++ lit "}").
Proof. vm_compute. reflexivity. Qed.

(** Nothing is a response without content. *)
Theorem C109_none debug : exists r, json_view debug (Ok (RValue JNull)) = Ok r /\ st_code (rs_status r) = 204%Z /\ rs_body r = BSeq [].
Proof. eexists. repeat split. Qed.
Print Assumptions C109_none.

(** A response is passed on as it is, and so are the exceptions of the action. *)
Theorem C109_response debug r : json_view debug (Ok (RResponse r)) = Ok r.
Proof. reflexivity. Qed.
Print Assumptions C109_response.
Theorem C109_exception debug e : json_view debug (Raise e) = Raise e.
Proof. reflexivity. Qed.
Print Assumptions C109_exception.

(** Exactly the values with something in them that is not JSON are refused, with a
    TypeError. *)
Theorem C109_refused v d : v <> JNull -> (json_view (Some d) (Ok (RValue v)) = Raise TypeError <-> foreign v).
Proof. exact (view_refused v d). Qed.
Print Assumptions C109_refused.
Example C109_refused_example : foreign (JDict [(KStr (lit "a"), JList [JInt 1; JOther])]).
Proof. eapply fo_value; [left; reflexivity|]. eapply fo_list; [right; left; reflexivity|]. constructor. Qed.

(** Refuted: an environment without a debug attribute, as BaseApplication is one, answers
    no value at all. *)
Theorem C109_debug_refuted v : v <> JNull -> json_view None (Ok (RValue v)) = Raise AttributeError.
Proof. intros H. destruct v; try reflexivity. contradiction. Qed.
Print Assumptions C109_debug_refuted.
(** Refuted: a response of another class than Response is taken for a value, so the view
    fails. *)
Theorem C109_response_refuted d : json_view (Some d) (Ok RObject) = Raise TypeError.
Proof. reflexivity. Qed.
Print Assumptions C109_response_refuted.
(** Refuted: of two keys with one name, only the last item arrives. *)
Theorem C109_keys_refuted : exists r b,
  json_view (Some false) (Ok (RValue (JDict [(KInt 1, JStr (lit "a")); (KStr (lit "1"), JStr (lit "b"))]))) = Ok r
  /\ rs_body r = BSeq [IBytes b] /\ loads b = Some (JDict [(KStr (lit "1"), JStr (lit "b"))]).
Proof. do 2 eexists. split; [vm_compute; reflexivity|]. split; [reflexivity|]. vm_compute. reflexivity. Qed.
Print Assumptions C109_keys_refuted.
(** Refuted: two surrogates next to each other arrive as one character. *)
Theorem C109_surrogates_refuted : exists r b, json_view (Some false) (Ok (RValue (JStr [55357; 56832]))) = Ok r
  /\ rs_body r = BSeq [IBytes b] /\ loads b = Some (JStr [128512]).
Proof. do 2 eexists. split; [vm_compute; reflexivity|]. split; [reflexivity|]. vm_compute. reflexivity. Qed.
Print Assumptions C109_surrogates_refuted.

(** C45, exactly: which length is announced after any calls, and when it is the number of bytes sent. *)
From Coq Require Import Arith List NArith ZArith Bool Lia.
From Verif Require Import PyStr PyStrFacts ModelHeaders SpecHeaders ModelEtag SpecEtag ModelResponse SpecResponse SpecLength ProofLength PropsResponse.
Import ListNotations.
Open Scope N_scope.

(** A response that starts without a Content-Length and is then changed by any calls at all.
    A sequence body is announced with exactly one length, the characters of its texts and the
    bytes of its byte strings.  It is never more than the bytes sent, and it is the number of
    bytes sent exactly if every text in the body is ASCII.  An iterator is announced with no
    length.  The four parameters are IDNA and the address checks. *)
Theorem C45_exact : forall (idna_part idna_decode_part : str -> res str) (ip_ok nfkc_ok : str -> bool)
    (r : response) (ops : list rop) (environ : dict str) (method line : str) (h : headers) (it : app_iter) (cs vs : list str),
  unannounced r -> rs_autolength r = true ->
  serve idna_part idna_decode_part ip_ok nfkc_ok environ (r_run r ops) = Ok (line, h, it) ->
  dget environ (lit "REQUEST_METHOD") = Some method -> method <> lit "HEAD" ->
  ~ bodyless (st_code (rs_status (r_run r ops))) ->
  chunks it = (cs, None) -> values_of (lit "Content-Length") h vs ->
  match rs_body (r_run r ops) with
  | BSeq l => exists n, counted l n /\ vs = [zdec (Z.of_nat n)] /\ (n <= length (concat cs))%nat /\
                (n = length (concat cs) <-> Forall plain l)
  | BIter _ _ _ => vs = []
  end.
Proof. exact length_exact. Qed.
Print Assumptions C45_exact.

(** Two texts and a byte string: four are counted and seven bytes are sent; frozen, the
    announced length is right. *)
Example C45_exact_example :
  let r := response0 [] (BSeq [IText [233]]) in
  let calls := [RWrite (IText [8364; 97]); RWrite (IBytes [1])] in
  unannounced r /\
  serve0 environ0 (r_run r calls) = Ok (lit "200 OK", [(lit "Content-Length", lit "4")], AEncoded (BSeq [IText [233]; IText [8364; 97]; IBytes [1]])) /\
  counted [IText [233]; IText [8364; 97]; IBytes [1]] 4 /\
  chunks (AEncoded (BSeq [IText [233]; IText [8364; 97]; IBytes [1]])) = ([[195; 169]; [226; 130; 172; 97]; [1]], None) /\
  serve0 environ0 (r_run r (calls ++ [RFreeze])) =
    Ok (lit "200 OK", [(lit "Content-Length", lit "7")], AEncoded (BSeq [IBytes [195; 169]; IBytes [226; 130; 172; 97]; IBytes [1]])).
Proof.
  split; [constructor|]. split; [vm_compute; reflexivity|]. split.
  - exact (cn_text [233] _ 3 (cn_text [8364; 97] _ 1 (cn_bytes [1] _ 0 cn_nil))).
  - vm_compute. auto.
Qed.

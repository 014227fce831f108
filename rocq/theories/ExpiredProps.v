(** C81, when the context of the request is done: what is archived of the client's messages. *)
From Coq Require Import String ZArith List Bool.
From Verif Require Import Base BaseFacts Effect Lts Ndt7Model Ndt7Spec Ndt7Example DoModel DoProofs CodecModel CodecSpec CodecDemo CodecRead CodecProps ToldExample ExpiredProofs.
Import ListNotations.
Open Scope Z_scope.

(** Whenever a subtest returns, also because its time is up, the client measurements of that
    moment are those of the first messages of the client, one for each and in order. *)
Theorem C81_receiver_any : forall sender c fuel proto k s snap pa, codec_ok c ->
  reachable (sub_init sender (receiver (decode_measurement c) fuel proto k tt)) sub_step s ->
  d_returned s = Some (snap, pa) ->
  (forall p, In (IPong p) (inputs (d_rtrace s)) -> bytes_ok p) ->
  (forall t, In (IText t) (inputs (d_rtrace s)) -> bytes_ok t) ->
  exists texts rest, texts_of (inputs (d_rtrace s)) = texts ++ rest /\ Forall2 (measurement_text c) texts snap.
Proof. exact snapshot_texts. Qed.
Print Assumptions C81_receiver_any.

(** The client sends two messages; the time is up before the second is stored. *)
Example C81_receiver_any_example : exists s,
  reachable (sub_init (Ret (a_empty, Ok None)) (receiver (decode_measurement demo) 6 (str "ndt7+ws") Download tt)) sub_step s /\
  d_returned s = Some ([kept], true) /\ inputs (d_rtrace s) = [IText kept_text; IText kept_text].
Proof.
  assert (D : decode_measurement demo kept_text = Some kept).
  { apply (decode_spec demo demo_ok); [apply bytes_okb_spec; reflexivity|exact (proj1 C69_example)]. }
  eexists. split; [|split].
  - eexists. split; [reflexivity|]. eapply later_trans.
    { apply (later_recv _
        [EReadLimit (2 ^ 24); ENow 0; EReadDeadline (0 + max_runtime) None; ECtxErr false; EFrame InText; EBody (BodyText kept_text); EStore kept;
         ECtxErr false; EFrame InText; EBody (BodyText kept_text)]
        (Do (fun _ : unit => EStore kept) (fun _ => receive_loop (decode_measurement demo) 0 (str "ndt7+ws") Download AtHead tt))).
      hop tt. hop 0%Z. hop (@None error). hop false. hop InText. hop (BodyText kept_text). cbn [pbind]. rewrite D. hop tt. hop false. hop InText. hop (BodyText kept_text).
      cbn [pbind]. rewrite D. constructor. }
    eapply later_front; [apply st_parent|]. eapply later_front; [apply st_return; reflexivity|]. constructor.
  - reflexivity.
  - reflexivity.
Qed.

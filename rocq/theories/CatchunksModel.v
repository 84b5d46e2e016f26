(** ndncatchunks as a whole: a pipeline whose data callback is Consumer::handleData.

    consumer.cpp L48-52 connects the pipeline's data callback to the consumer; main.cpp L291
    passes the accept-all validator (ndn::security::getAcceptAllValidator), which accepts
    every Data at once, so that the consumer processes the delivered segments in the order
    of delivery. *)
From Verif Require Import Base PipelineBase PipelineSpec AdaptiveModel ConsumerModel.

(** consumer.cpp L59-77: what the consumer has done after the pipeline history [h] *)
Definition catchunks_consumer (h : list pobs) : consumer :=
  co_run (map (fun p => CeAccept (fst p) (snd p)) (deliveries h)).

(** what ndncatchunks has written to standard output (main.cpp L291: std::cout) *)
Definition catchunks_stdout (h : list pobs) : list N := co_out (catchunks_consumer h).

(** consumer.cpp L66-68: the callback throws on an application-level Nack *)
Definition catchunks_config (maxRetries : Z) (ignoreCongMarks disableCwa : bool) : aconfig :=
  AConfig maxRetries ignoreCongMarks disableCwa d_appnack.

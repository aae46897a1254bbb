(** What C157 and C158 speak about: clusters in which something is wrong with a topic, and the
    partition Kafka's own producers choose for a key. *)
From Verif Require Import Base Brokers ProducerSpec.

(** Whoever is asked about topics answers with an error (or not at all).  Requests without topics
    (for the brokers) may be answered. *)
Definition troubled {W} (exch : W -> handle -> req -> W * (err + resp * option err)) : Prop :=
  forall w h ts, ts <> [] -> match snd (exch w h (QMeta ts)) with inr (_, None) => False | _ => True end.

(** org.apache.kafka.clients.producer.internals (BuiltInPartitioner.partitionForKey):
    toPositive(murmur2(key)) % numPartitions, with the seed of Utils.murmur2 *)
Definition kafka_partition (key : bytes) (n : Z) : Z := (murmur_spec_seed 0x9747b28c key mod 2 ^ 31) mod n.

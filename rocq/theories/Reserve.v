(** Model of the memory a decoder asks for before it has read what it is for. *)
From Verif Require Import Base Prims Responses.

(** The number given to the first make of a decoder, read behind the length of the response:
    apiversions_response.go:171-173, metadata_response.go:169-171, joingroup_response.go:85-87,
    offset_commit_response.go:55-57, offset_fetch_response.go:52-54,
    describe_groups_response.go:54-57, delete_groups_response.go:42-44,
    delete_topics_response.go:44-46, create_topics_response.go:44-47,
    sasl_handshake_response.go:41-44, describe_configs_response.go:122-125,
    describe_logdirs_response.go:104-115, elect_leaders_response.go:88-91.
    The others are not followed. *)
Definition first_make (key v : Z) : option (parser Z) :=
  match key with
  | 18 => Some (_ <- rd_u32 ;; _ <- rd_i16 ;; rd_u32)
  | 3 => Some (_ <- rd_u32 ;; _ <- (if 4 <=? v then rd_i32 else ret 0) ;; rd_u32)
  | 11 => Some (_ <- rd_u32 ;; _ <- rd_i16 ;; _ <- rd_i32 ;; _ <- rd_str ;; _ <- rd_str ;; _ <- rd_str ;; rd_u32)
  | 8 | 9 | 15 | 20 => Some (_ <- rd_u32 ;; rd_u32)
  | 19 => Some (_ <- rd_u32 ;; rd_i32)
  | 32 => Some (_ <- rd_u32 ;; _ <- rd_u32 ;; rd_u32)
  | 42 | 43 => Some (_ <- rd_u32 ;; _ <- rd_i32 ;; rd_u32)
  | 35 => Some (_ <- rd_skip 4 ;; _ <- rd_i32 ;; rd_u32)
  | 17 => Some (_ <- rd_u32 ;; _ <- rd_peek 4 ;; _ <- rd_skip 2 ;; rd_u32)
  | _ => None
  end.

(** response.go:63-64: what Read asks for when it has read the four bytes of the length *)
Definition read_make (b : bytes) : Z := 4 + unbe b.

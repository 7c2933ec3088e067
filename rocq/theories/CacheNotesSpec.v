(** * Specification of what the notes about caching show (C68). *)
From Coq Require Import QArith.
From Verif Require Import PyStr NoteTable Note PyLib Utils Types PropBody StatusSpec CacheSpec.
Open Scope N_scope.

(** The order in which the notes about caching appear. *)
Definition cache_order : list nid :=
  [DATE_CLOCKLESS; DATE_CLOCKLESS_BAD_HDR; STORE_NO_STORE; STORE_PRIVATE_CC; STORE_PRIVATE_PUBLIC_CONFLICT; STORE_PUBLIC_AUTH;
   STORE_PRIVATE_AUTH; STORE_STORABLE; STORE_STORABLE_SHARED_ONLY; STORE_UNSTORABLE; CURRENT_AGE; FRESHNESS_NO_CACHE_NO_VALIDATOR; FRESHNESS_NO_CACHE;
   FRESHNESS_SHARED_PRIVATE; FRESHNESS_FRESH; FRESHNESS_STALE_ALREADY; CC_AND_EXPIRES; FRESHNESS_HEURISTIC; FRESHNESS_NONE; STORE_PUBLIC_UNNECESSARY;
   STALE_WHILE_REVALIDATE; STALE_IF_ERROR; FRESH_MUST_REVALIDATE; STALE_MUST_REVALIDATE; FRESH_PROXY_REVALIDATE; STALE_PROXY_REVALIDATE; STALE_SERVABLE].

(** What a verdict about freshness rests on. *)
Definition freshness_fields (m : mstate) : list string :=
  (["field-date"%string] ++ match clock (m_start m) with Some _ => if sent m "expires" then ["field-expires"%string] else [] | None => [] end
   ++ match setting m "max-age" with Some _ => ["field-cache-control"%string] | None => [] end
   ++ match setting m "s-maxage" with Some _ => ["field-cache-control"%string] | None => [] end)%list.
Definition cache_subject (c : nid) (m : mstate) : str :=
  match c with
  | DATE_CLOCKLESS | FRESHNESS_NONE => []
  | DATE_CLOCKLESS_BAD_HDR => u "field-expires field-last-modified"
  | CURRENT_AGE => u "field-age field-date"
  | FRESHNESS_SHARED_PRIVATE | FRESHNESS_FRESH | FRESHNESS_STALE_ALREADY => join (u " ") (map u (freshness_fields m))
  | CC_AND_EXPIRES => u "field-expires field-cache-control"
  | FRESHNESS_HEURISTIC => u "field-last-modified"
  | _ => u "field-cache-control"
  end.

(** A time span, shown without direction. *)
Definition span (v : option pyval) (q : Q) : Prop := exists q', v = Some (VRel q' 0 0) /\ (q' == q)%Q.
Definition whole_span (v : option pyval) (z : Z) : Prop := v = Some (VRel (inject_Z z) 0 0).
Definition reads (v : option pyval) (s : string) : Prop := v = Some (VStr (u s)).
(** Whole seconds between the age and the end of the lifetime. *)
Definition distance (life : Z) (age : Q) : Z := Z.abs (seconds (inject_Z life - age)%Q).
Definition state (v : option pyval) (fresh : Prop) : Prop := fresh /\ reads v "fresh" \/ ~ fresh /\ reads v "stale".
Definition cache_shows (c : nid) (m : mstate) (rel : option mstate) (said : string -> option pyval) : Prop :=
  let priv := or_zero (private_life m) in
  let shared := or_zero (shared_life m) in
  match c with
  | STORE_PUBLIC_AUTH =>
      says m "public" /\ reads (said "directive"%string) "public"
      \/ ~ says m "public" /\ says m "must-revalidate" /\ reads (said "directive"%string) "must-revalidate"
      \/ ~ says m "public" /\ ~ says m "must-revalidate" /\ says m "s-maxage" /\ reads (said "directive"%string) "s-maxage"
  | CURRENT_AGE => span (said "age"%string) (age_of m rel)
  | FRESHNESS_SHARED_PRIVATE =>
      whole_span (said "fresh_lifetime"%string) priv /\ whole_span (said "fresh_left"%string) (distance priv (age_of m rel))
      /\ whole_span (said "share_lifetime"%string) shared /\ whole_span (said "share_left"%string) (distance shared (age_of m rel))
      /\ state (said "private_status"%string) (fresh_private m rel) /\ state (said "shared_status"%string) (fresh_shared m rel)
  | FRESHNESS_FRESH | FRESHNESS_STALE_ALREADY =>
      whole_span (said "freshness_lifetime"%string) priv /\ whole_span (said "freshness_left"%string) (distance priv (age_of m rel)) /\ span (said "current_age"%string) (age_of m rel)
  | _ => True
  end.

(** The texts for result codes: src/wolfsentry_util.c 28-302, with the identifiers of wolfsentry/wolfsentry_errcodes.h 369-384 and 393-449.
    The three arrays of user texts are the state.  [None] stands for an access behind or before the end of an array.  A text is the string
    it points to, and [Null] a null pointer; the caller keeps the strings valid, as the header says. *)
Require Import ZArith List String Bool.
From Verif Require Import Errcode.
Import ListNotations.
Local Open Scope string_scope.
Open Scope Z_scope.

(** A [const char *]. *)
Inductive text := Null | Text (s : string).
(** An array of [size] pointers; wolfsentry_util.c 30, 85, 86: all of them start as null. *)
Record table := Table { size : Z; entry : Z -> text }.
Definition get (t : table) (i : Z) : option text := if (0 <=? i) && (i <? size t) then Some (entry t i) else None.
Definition put (t : table) (i : Z) (x : text) : option table :=
  if (0 <=? i) && (i <? size t) then Some (Table (size t) (fun j => if j =? i then x else entry t j)) else None.

(** wolfsentry_errcodes.h 383, 437, 448. *)
Definition SOURCE_USER_BASE : Z := 112.
Definition ERROR_USER_BASE : Z := -128.
Definition SUCCESS_USER_BASE : Z := 128.
(** wolfsentry_errcodes.h 394, 402, 411. *)
Definition E_OK : Z := 0.
Definition E_INVALID_ARG : Z := -8.
Definition E_ALREADY_PRESENT : Z := -17.

(** wolfsentry_util.c 30, 85, 86. *)
Record registry := Registry { user_sources : table; user_errors : table; user_successes : table }.
Definition at_start : registry :=
  Registry (Table (SOURCE_ID_MAX - SOURCE_USER_BASE + 1) (fun _ => Null))
           (Table (ERROR_ID_MAX - ERROR_USER_BASE + 1) (fun _ => Null))
           (Table (ERROR_ID_MAX + SUCCESS_USER_BASE + 1) (fun _ => Null)).

(** wolfsentry_util.c 32-41 (wolfsentry_user_source_string_set).  The enumeration has no negative members, so the argument is unsigned. *)
Definition source_string_set (r : registry) (id : Z) (x : text) : option (registry * Z) :=
  if (id <? SOURCE_USER_BASE) || (SOURCE_ID_MAX <? id) then Some (r, E_INVALID_ARG)
  else match get (user_sources r) (id - SOURCE_USER_BASE) with
       | None => None
       | Some (Text _) => Some (r, E_ALREADY_PRESENT)
       | Some Null => match put (user_sources r) (id - SOURCE_USER_BASE) x with
                      | None => None
                      | Some t => Some (Registry t (user_errors r) (user_successes r), E_OK)
                      end
       end.

(** wolfsentry_util.c 88-108 (wolfsentry_user_error_string_set). *)
Definition error_string_set (r : registry) (id : Z) (x : text) : option (registry * Z) :=
  if id <? 0 then
    if (ERROR_USER_BASE <? id) || (id <? - ERROR_ID_MAX) then Some (r, E_INVALID_ARG)
    else match get (user_errors r) (- (id - ERROR_USER_BASE)) with
         | None => None
         | Some (Text _) => Some (r, E_ALREADY_PRESENT)
         | Some Null => match put (user_errors r) (- (id - ERROR_USER_BASE)) x with
                        | None => None
                        | Some t => Some (Registry (user_sources r) t (user_successes r), E_OK)
                        end
         end
  else
    if (id <? SUCCESS_USER_BASE) || (ERROR_ID_MAX <? id) then Some (r, E_INVALID_ARG)
    else match get (user_successes r) (id - SUCCESS_USER_BASE) with
         | None => None
         | Some (Text _) => Some (r, E_ALREADY_PRESENT)
         | Some Null => match put (user_successes r) (id - SUCCESS_USER_BASE) x with
                        | None => None
                        | Some t => Some (Registry (user_sources r) (user_errors r) t, E_OK)
                        end
         end.

(** A switch with one return for each case. *)
Definition switch (cases : list (Z * string)) (i : Z) : option string :=
  option_map snd (find (fun c => fst c =? i) cases).

(** wolfsentry_util.c 48-71. *)
Definition sources : list (Z * string) :=
  [(0, "<unset>");
   (1, "actions.c");
   (2, "events.c");
   (3, "wolfsentry_internal.c");
   (4, "routes.c");
   (5, "wolfsentry_util.c");
   (6, "kv.c");
   (7, "addr_families.c");
   (8, "json/load_config.c");
   (9, "json/json_util.c");
   (10, "lwip/packet_filter_glue.c");
   (11, "action_builtins.c")].
(** wolfsentry_util.c 44-82 (wolfsentry_errcode_source_string). *)
Definition errcode_source_string (r : registry) (e : Z) : option text :=
  let i := decode_source_id e in
  match switch sources i with
  | Some s => Some (Text s)
  | None =>
    if SOURCE_USER_BASE <=? i then
      match get (user_sources r) (i - SOURCE_USER_BASE) with
      | None => None
      | Some (Text s) => Some (Text s)
      | Some Null => Some (Text "unknown user defined source")
      end
    else Some (Text "unknown source")
  end.

(** wolfsentry_util.c 115-216. *)
Definition messages : list (Z * string) :=
  [(0, "OK, operation succeeded");
   (-1, "Error, not otherwise specified");
   (-2, "Internal consistency check failed, not recoverable");
   (-3, "Host system operation failed, not recoverable");
   (-4, "Host system operation failed, normal error (recoverable)");
   (-5, "Host system resource exhausted/failed, normal error (recoverable)");
   (-6, "Request was incompatible with current state of the designated object");
   (-7, "Operation timed out");
   (-8, "Supplied argument was invalid");
   (-9, "A prerequisite condition was unmet because a resource was busy");
   (-10, "Operation was interrupted by a signal");
   (-11, "Numeric arg is impermissibly large");
   (-12, "Numeric arg is impermissibly small");
   (-13, "String or vector arg is impermissibly long");
   (-14, "Buffer too small to complete operation");
   (-15, "Function or mechanism not compiled in or not implemented");
   (-16, "No matching item found");
   (-17, "New item would collide with existing item");
   (-18, "Operation attempted with object already marked as stopped");
   (-19, "Operation attempted on wrong type of object");
   (-20, "Requested data or buffer is not present");
   (-21, "Illegal access attempted");
   (-22, "Object already has requested condition");
   (-23, "Configuration contains an invalid key");
   (-24, "Configuration contains an invalid value");
   (-25, "Configuration clause in wrong sequence or missing dependency");
   (-26, "Configuration has unexpected or invalid structure");
   (-27, "Configuration uses a key in the wrong context or combination");
   (-28, "Configuration parsing failed");
   (-29, "Configuration processing failed due to missing handler");
   (-30, "Configuration contains an overlong JSON value");
   (-31, "Operation not supported for protocol");
   (-32, "Item type does not match request");
   (-33, "Bad value");
   (-34, "Deadlock averted");
   (-35, "Overflow averted");
   (-36, "Caller lacks exclusive lock");
   (-37, "Caller lacks shared read lock");
   (-38, "Library or plugin version mismatch");
   (-39, "Library built configuration is incompatible with caller");
   (-40, "Input/output failure");
   (-41, "Attributes of item preclude the requested operation");
   (1, "Lock request succeeded and reserved promotion");
   (2, "Caller owns a mutex on the designated lock");
   (3, "Caller shares the designated lock");
   (4, "Operation succeeded by fallback strategy");
   (5, "Result was Yes");
   (6, "Result was No");
   (7, "Operation skipped due to idempotency");
   (8, "Operation deferred awaiting state change")].
(** wolfsentry_util.c 111-234 (wolfsentry_errcode_error_string).  What is returned for a registered success is an entry of the table of
    errors (227). *)
Definition errcode_error_string (r : registry) (e : Z) : option text :=
  let i := decode_error_code e in
  match switch messages i with
  | Some s => Some (Text s)
  | None =>
    if i <=? ERROR_USER_BASE then
      match get (user_errors r) (- (i - ERROR_USER_BASE)) with
      | None => None
      | Some (Text s) => Some (Text s)
      | Some Null => Some (Text "unknown user defined error code")
      end
    else if SUCCESS_USER_BASE <=? i then
      match get (user_successes r) (i - SUCCESS_USER_BASE) with
      | None => None
      | Some (Text _) => get (user_errors r) (i - SUCCESS_USER_BASE)
      | Some Null => Some (Text "unknown user defined success code")
      end
    else if 0 <=? i then Some (Text "unknown success code")
    else Some (Text "unknown error code")
  end.

(** wolfsentry_util.c 241-296. *)
Definition names : list (Z * string) :=
  [(0, "OK");
   (-1, "NOT_OK");
   (-2, "INTERNAL_CHECK_FATAL");
   (-3, "SYS_OP_FATAL");
   (-4, "SYS_OP_FAILED");
   (-5, "SYS_RESOURCE_FAILED");
   (-6, "INCOMPATIBLE_STATE");
   (-7, "TIMED_OUT");
   (-8, "INVALID_ARG");
   (-9, "BUSY");
   (-10, "INTERRUPTED");
   (-11, "NUMERIC_ARG_TOO_BIG");
   (-12, "NUMERIC_ARG_TOO_SMALL");
   (-13, "STRING_ARG_TOO_LONG");
   (-14, "BUFFER_TOO_SMALL");
   (-15, "IMPLEMENTATION_MISSING");
   (-16, "ITEM_NOT_FOUND");
   (-17, "ITEM_ALREADY_PRESENT");
   (-18, "ALREADY_STOPPED");
   (-19, "WRONG_OBJECT");
   (-20, "DATA_MISSING");
   (-21, "NOT_PERMITTED");
   (-22, "ALREADY");
   (-23, "CONFIG_INVALID_KEY");
   (-24, "CONFIG_INVALID_VALUE");
   (-25, "CONFIG_OUT_OF_SEQUENCE");
   (-26, "CONFIG_UNEXPECTED");
   (-27, "CONFIG_MISPLACED_KEY");
   (-28, "CONFIG_PARSER");
   (-29, "CONFIG_MISSING_HANDLER");
   (-30, "CONFIG_JSON_VALUE_SIZE");
   (-31, "OP_NOT_SUPP_FOR_PROTO");
   (-32, "WRONG_TYPE");
   (-33, "BAD_VALUE");
   (-34, "DEADLOCK_AVERTED");
   (-35, "OVERFLOW_AVERTED");
   (-36, "LACKING_MUTEX");
   (-37, "LACKING_READ_LOCK");
   (-38, "LIB_MISMATCH");
   (-39, "LIBCONFIG_MISMATCH");
   (-41, "WRONG_ATTRIBUTES");
   (-40, "IO_FAILED");
   (1, "LOCK_OK_AND_GOT_RESV");
   (2, "HAVE_MUTEX");
   (3, "HAVE_READ_LOCK");
   (4, "USED_FALLBACK");
   (5, "YES");
   (6, "NO");
   (7, "ALREADY_OK");
   (8, "DEFERRED")].

(** wolfsentry_util.c 237-302 (wolfsentry_errcode_error_name). *)
Definition errcode_error_name (r : registry) (e : Z) : option text :=
  match switch names (decode_error_code e) with
  | Some s => Some (Text s)
  | None => errcode_error_string r e
  end.

(** Aligned allocation by the library's own allocators: src/wolfsentry_util.c 569-604 (FreeRTOS) and 669-720 with
    WOLFSENTRY_NO_POSIX_MEMALIGN (hosts without posix_memalign).  Addresses and sizes are 64-bit words (uintptr_t, size_t).
    The underlying allocator answers with the address of a block of as many bytes as it was asked for.  WOLFSENTRY_MALLOC_DEBUG
    is off. *)
From Verif Require Import Base.
Open Scope Z_scope.

Definition word : Z := 2 ^ 64.
(** ~(alignment - 1) as a size_t. *)
Definition mask (alignment : Z) : Z := Z.lxor ((alignment - 1) mod word) (word - 1).

Inductive port := FreeRTOS | NoPosixMemalign.
(** 579 and 681: the room asked for beside [size]; FreeRTOS keeps it in a uint32_t. *)
Definition hdr_size (p : port) (alignment : Z) : Z :=
  match p with FreeRTOS => (2 + (alignment - 1)) mod 2 ^ 32 | NoPosixMemalign => (2 + (alignment - 1)) mod word end.
(** 578, 680 and 580, 682: how many bytes are asked of the underlying allocator; [None]: it is not called, the answer is NULL. *)
Definition request (p : port) (alignment size : Z) : option Z :=
  if negb (alignment =? 0) && negb (size =? 0) then Some ((size + hdr_size p alignment) mod word) else None.

(** Memory: the bytes that belong to the block are those of [base, base + len).  Here only the 16-bit header is kept. *)
Record result := mkRes { r_ptr : Z; r_hdr_at : Z; r_hdr : Z }.
(** 586-588, 685-687: the aligned address in the block [base], and the distance back to its start, in the two bytes before. *)
Definition place (alignment base : Z) : result :=
  let ptr := Z.land ((base + 2 + (alignment - 1)) mod word) (mask alignment) in
  mkRes ptr ((ptr - 2) mod word) ((ptr - base) mod 2 ^ 16).
(** 593-597, 726-729: what is passed to the underlying free, given the pointer and the header found before it. *)
Definition free_aligned (ptr hdr : Z) : Z := (ptr - hdr) mod word.

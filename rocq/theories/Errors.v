(** * Errors: the panic values of crunch (v1/errors.go, v2/errors.go, v3/errors.go). *)
From Coq Require Import String.
From Verif Require Import GoSem.
Open Scope string_scope.

(** v3/errors.go:31-36, v2/errors.go:31-36, v1/errors.go:31-36 *)
Definition BufferOverreadError := CrunchError "buffer" "read exceeds buffer capacity".
(** v3/errors.go:38-43, v2/errors.go:38-43, v1/errors.go:38-43 *)
Definition BufferUnderreadError := CrunchError "buffer" "read offset is less than zero".
(** v3/errors.go:45-50, v2/errors.go:45-50, v1/errors.go:45-50 *)
Definition BufferOverwriteError := CrunchError "buffer" "write offset exceeds buffer capacity".
(** v3/errors.go:52-57, v2/errors.go:52-57, v1/errors.go:52-57 *)
Definition BufferUnderwriteError := CrunchError "buffer" "write offset is less than zero".
(** v3/errors.go:59-64, v2/errors.go:59-64, v1/errors.go:73-78 *)
Definition BufferInvalidByteCountError := CrunchError "buffer" "invalid byte count requested".
(** v3/errors.go:66-71 (never raised by the package) *)
Definition BytesBufNegativeReadError := CrunchError "bytesbuf" "reader returned negative count from Read".
(** v1/errors.go:59-64 *)
Definition BufferInvalidIntegerSizeError := CrunchError "buffer" "invalid integer size specified".
(** v1/errors.go:66-71 (never raised by the package) *)
Definition BufferInvalidEndiannessError := CrunchError "buffer" "invalid endianness specified".
(** v1/errors.go:80-85, v2/errors.go:66-71 *)
Definition BufferInvalidBitError := CrunchError "buffer" "invalid bit value specified".

(** The [Error] method: fmt.Sprintf("crunch: %s: %s", e.scope, e.error).
    v3/errors.go:22-26, v2/errors.go:22-26, v1/errors.go:22-26.  Runtime errors
    are not crunch values; their text is not modelled. *)
Definition error_string (e : err) : option string :=
  match e with
  | CrunchError scope error => Some ("crunch: " ++ scope ++ ": " ++ error)
  | RuntimeError _ => None
  end.

# A Rocq (Coq 8.16.1) model of dedis/apir-code

## 1. Layout

* `properties.jsonl` - the properties (C01 ...), in terms of the API.
* `MANIFEST.json` - status and exact theorem names per property.
* `rocq/theories/*Model.v` (and `GoBase.v`) - the model, definitions only; every definition
  cites the file and lines of `/repo` it models.
* `rocq/theories/*Spec.v` - small independent specifications used in the statements.
* `rocq/theories/*Proofs.v` - lemmas.
* `rocq/theories/Properties_*.v` - only property theorems (`Proof. exact lemma. Qed.`), non-vacuity
  `Example`s beside them, and `Print Assumptions`.
* `seeded/LOG.jsonl` - mutation tests of the theorems.

## 2. Modelling conventions

* Go `int`, `uint32`, `uint64`, `uint128` and bytes are `Z`; unsigned arithmetic wraps explicitly
  with `mod 2^k`. "Is a byte", "is a uint32" are predicates that appear in the statements.
  Go `int` is treated as unbounded (64-bit overflow of lengths is out of scope; stated where relevant).
* A Go function that can fail returns `res A` = `Ok a | Err e | Panic p | Fatal e` - error values, run-time panics
  and `log.Fatal` exits are distinguished. Indexing and slicing are explicit checked operations.
  Slice capacity is taken equal to slice length, except in `RobustModel` (C104, C50), where reslicing into spare capacity is modelled.
  The matrix kernels of `MatrixModel` index without overflow; C101 says for which sizes the C code does.
* External code (AES, BLAKE3, BLAKE2b, dpf-go, the AES-CTR keystream, the wall clock, the elliptic-curve library, OpenPGP parsing,
  the type definitions of gob) is an argument of the model, quantified in the theorem statements. What is assumed about it (e.g. "the hash
  returns 32 bytes", "DPF shares XOR to the point function") is a named predicate that appears as a hypothesis, and an instance satisfying it
  is proved in an `Example`. FNV-1a is modelled concretely.
* Goroutines and channels are modelled as transition systems; "for every schedule" is "for every sequence of steps".
* `log.Printf`, timing, bandwidth accounting, profiling, flag parsing and TLS handshakes are not modelled.
* `math.Ceil(math.Log2(x))` is modelled as the exact integer ceiling of the binary logarithm.

## 3. Properties that turned out false

When a property is false of the code, the full statement is kept in view in `properties.jsonl`, a theorem
`..._refuted` exhibits a witness in the model, and a `..._partial` theorem (or an exact characterisation) states what does hold. These properties carry the
status `partial` in the manifest.

## 4. Plan per property

| Property | Modelled | Proof |
|---|---|---|
| C01-C05, C07-C09, C64 codecs, padding, positions | `EncodingModel`, `MatrixModel` over byte lists | induction on the list, endian lemmas, exact panic set, Euclidean division |
| C06, C28-C32, C66 Merkle trees and proofs | `MerkleModel`: array tree, map of fingerprints, proof loop, verifier, wire codec | tree invariant nodes[i] = H(nodes[2i] nodes[2i+1]); descent from the root with collision extraction; an independent recursive root |
| C10-C13 field | `FieldModel`, readers as functions from stream to bytes and rest | induction; primality by verified trial division computed in the kernel |
| C14-C17, C67 function secret sharing | `FSSModel`: GenerateTreePF / EvaluatePF over an arbitrary block function | two-phase invariant (on path: seeds and bits differ; off path: equal) by induction on the bits |
| C18-C27, C68-C71 predicate queries | `PredicateModel`: query ids, calendar, server answer loops, client reconstruction | linearity of the sum, field algebra, counting of MAC keys, calendar arithmetic |
| C33-C39, C72 point PIR | `PointModel`: secretShare, Answer loops, reconstruct, Merkle unwrapping | XOR algebra; bijection on randomness for privacy |
| C40-C46, C62, C63, C65 LWE | `MatrixModel`, `LWEModel`, `PrgModel` | matrix algebra mod 2^k; interval arithmetic; counting of secrets; stream invariants |
| C47-C49, C88 amplification | `LWEModel` (repetition code), `SimulModel` (deployed parameters) | counting occurrences; exact integer counting of bad secrets |
| C50-C52 DH | `DHModel`: abstract group with laws as a predicate; chunking of rows | group algebra; arithmetic of chunk bounds |
| C53-C57, C73-C78 key directory | `DirectoryModel`: parsing, writing, hash table, layout, client lookup | invariants over insertion sequences; uniqueness of sorted permutations |
| C58-C60, C80 RPC server | `RPCModel`: transition system of handlers, queue, worker, shutdown | inductive invariants over all schedules |
| C61, C81-C87 front ends | `FrontendModel`: configuration file, managers, command line, interactive and web clients | case analysis of the handlers; permutation arguments for connection and arrival order |
| C79 scratch buffers | `BufferModel`: predicate code with its reused buffers as explicit memory | simulation against the pure model |
| C89-C92 benchmarks | `MultiModel`, `SimulModel` | composition of the point, predicate and Merkle results |
| C93 shared generator | `SharedModel`: transition system over the mutex and the buffered reader | linearization invariant over all schedules; progress measure |
| C94 noise | `NoiseModel`: table, float conversion, rejection loop | exact counting of words; interval bounds on exp over the standard library reals |
| C95-C100 files and data tool | `FilesModel`: directories, writes as effects, crashes as prefixes of the effects | sorted-list extensionality; chunk-wise decomposition of the effects |
| C101-C104 malformed messages | `RobustModel`: C kernels with 32-bit indices over raw memory, slices with spare capacity, servers and clients on arbitrary bytes | exhaustive case analysis of the parsers; loop invariants of the kernels |
| C105 single-server benchmark | `BenchModel`: the loop over lengths, one repetition of each scheme, the reported figures | invariants of the loop over lengths; the session theorems of the three schemes |
| C106-C108 key pages, dishonest servers, starting servers | `KeyPageModel`: GetKey of the actor, the three front ends around it, the start of a server | the directory theorems composed with the front ends; explicit attacks by one server |
| C109-C112 sessions with the front ends, their start, counting servers | `SessionModel`: the menu loop, the routing of the web server, the managers, started predicate servers | induction over the session; the key page, front end and predicate theorems composed with the start of the servers |
| C113-C115 floating point: sizes, CPU times, logged sizes | `FloatModel`: reals with a rounding to nearest double after each operation | a strictly closer double excludes rounding onto the wrong integer; monotonicity and unit-in-the-last-place bounds |
| C116-C117 who is at the other end of a connection | `ChannelModel`: the certificates and keys of tls.go, TLS acceptance, dialling of all clients, the queries sent by a lookup | acceptance characterised by certificate, key and time; the sharing theorems of the point and predicate schemes |
| C118-C119 life of a server process | `LifecycleModel`: main goroutine, accepting goroutine, handlers, channels and notifications as a transition system | invariant over every history; explicit bad histories |
| C120-C121 what travels over the network | `WireModel`: protobuf fields and messages, gRPC frames with gzip and size limits, client and server side of a call | round trips by induction over the encodings; concatenation of field lists; the lookup theorems composed with remote servers |
| C122-C123 profiles | `ProfileModel`: deferred functions, the profiling goroutine and signals on top of `LifecycleModel`; the client and the benchmark as sequences of acts | every end of a process has one of seven causes (invariant over every history) |
| C124 from the dumps to the shown key | no new model: `EndToEndSpec` describes dump directories, machines prepared by two runs of the data tool and servers found at the configured addresses | composition of C98, C77, C108, C120 and C106: prepared machines store the same directory whatever order the tool visited its map in |
| C125 from the dumps to the shown number | no new model: `CountSpec.current`, the freshest valid small key of each address | composition of C98, C77 and C112: the rows of the servers are a permutation of the current keys without their subkeys |
| C126 predicate queries as bytes | `GobModel`: numbers, slices, structs and streams of encoding/gob, the structs of lib/query and lib/fss, queryBytes and answerBytes on bytes | round trips field by field, then the exchanges with bytes equal those without; composition with C120 and C125 |
| C127 the multi-server benchmark for predicate queries | `MultiNetModel`: start of a server, its description and answers, the repetitions of the client with queries as bytes | exact sizes of the encoded keys from C126, results from C91 carried over the network by C120 |
| C128 the multi-server benchmark for point queries | `MultiNetModel` (start of a server, description, answers) with the client of `MultiModel` | C89 carried over the network by C120; sizes of queries by cases on the number of servers |
| C129 addresses in user ids, entities of key files | `PgpHelpModel`: backtracking matcher for the part of package regexp that is used, FindString, Trim, and loading with a key ring reader | matcher sound and complete for the language of the expression, leftmost match; induction over keys |
| C130 log files and figures of the multi-server benchmark | `LogModel`: lines of package log, the messages of client and server in their order, and the parsing of plot.py | lines and fields recovered by induction over messages; from a completed run by inverting `multi_predicate_run` |
| C131 figures of the single-server benchmark | `ResultsModel`: the JSON file written from the results, a JSON reader, the reader of the script, medians, table cells, bars, preprocessing curve | what is written is read back (induction over JSON values); medians by sorting; composed with the runs of C105 |
| C132 figures of the deployment | `TrialModel`: output of client runs and server processes in experiment mode, parseLog with its dictionaries, plotReal, plotRealComplex, rounder2 and the ratio | texts made of whole lines give their samples (induction over outputs and runs); the dictionary as a function of the samples by induction; medians from C131 |
| C133 script of the multi-server benchmarks | `DriverModel`: commands, splitting into words, flag parsing of both programs, names of log files, collection into a directory, cleaning, files opened by the plotting script, numbering of machines | commands as joined words, one lemma per flag; injective names via splitting at underscores; lookup in the directory as an invariant of all later writes and removals; figure by composition with C130 |
| C134 choice of the number of repetitions | `IntegrityModel`: bound, error formula in exact arithmetic, first tolerance of the range, output | square-root specification; induction over the range; counting lemmas of C88 at the printed parameters |

Not expressible in this model: computational privacy (DH: DDH; LWE: decisional LWE; DPF/FSS: PRF security) - they are statements about
probabilistic polynomial-time adversaries; only the algebra (correctness, soundness counting) and perfect privacy of the secret-sharing scheme are covered.
Running time and measured bandwidth of the simulations are not modelled.

## 5. Trusted base

* Coq's kernel (8.16.1), including its virtual machine (`vm_compute` is used for computations; no `native_compute`, no plugins, no kernel flag changed).
* `Print Assumptions` follows every property theorem in `Properties_*.v`. Every theorem is "Closed under the global context", except the
  theorems about real numbers, which depend on axioms of the standard library:
  * `ClassicalDedekindReals.sig_forall_dec` and `FunctionalExtensionality.functional_extensionality_dep`: `C94_gaussian` and all theorems
    of C113, C114 and C115;
  * in addition `ClassicalDedekindReals.sig_not_dec`: `C94_gaussian`, `C113_next_square`, `C113_matrix`, `C113_tree`, `C113_models`, `C113_limits`;
  * in addition `Classical_Prop.classic`: `C94_gaussian`, `C113_tree`, `C113_models`.
  (`coqchk -o` also lists the constants of sealed modules of the standard library as axioms, because it does not look through module types:
  seven of `Coq.ssr.ssrunder.Under_rel`, loaded with the `ssreflect` tactic files, on which no theorem depends, and those of
  `Coq.Reals.Rdefinitions.RbaseSymbolsImpl` and `RinvImpl`, the definition of the real numbers, used by the same theorems only.)
* No axiom, `Admitted`, `Parameter`, section-less `Variable`, functor or module type is introduced.
* The correspondence between `/repo` and the model files (each definition cites its lines), the conventions of section 2, and the laws assumed of
  external components, which appear as hypotheses of the theorems that need them and are met by concrete instances in
  `ToyInstances.v`, `ToyPoint.v`, `ToyGroup.v`, `ToyDirectory.v` and beside the theorems.

## 6. What is modelled and what is not

Generated from the citations in the model files: for each Go file, the model files that cite it and the functions no citation covers.
Uncovered functions are wrappers, accessors, constructors that only store their arguments, logging, or code outside the model as said below.

| Go file | Model files | Functions not modelled |
|---|---|---|
| cmd/grpc/client/interactive/mod.go | FrontendModel, GobModel, KeyPageModel, SessionModel, WireModel | - |
| cmd/grpc/client/main.go | ChannelModel, DirectoryModel, FrontendModel, GobModel, KeyPageModel, ProfileModel, TrialModel, WireModel | parseFlags |
| cmd/grpc/client/manager/mod.go | ChannelModel, DirectoryModel, FrontendModel, KeyPageModel, SessionModel, WireModel | - |
| cmd/grpc/client/web/mod.go | FrontendModel, GobModel, KeyPageModel, SessionModel, WireModel | logging |
| cmd/grpc/sdnotify/sdnotify.go | LifecycleModel | - |
| cmd/grpc/server/main.go | ChannelModel, DirectoryModel, FilesModel, FloatModel, FrontendModel, GobModel, KeyPageModel, LifecycleModel, ProfileModel, RPCModel, SessionModel, TrialModel, WireModel | - |
| data/main.go | DirectoryModel, FilesModel | - |
| lib/client/amplify.go | LWEModel, SimulModel | - |
| lib/client/client.go | DHModel, PointModel, PredicateModel | invalidQueryInputsFSS |
| lib/client/dh.go | DHModel, RobustModel | - |
| lib/client/fss.go | BufferModel, GobModel, PredicateModel | - |
| lib/client/lwe.go | LWEModel | NewLWE |
| lib/client/lwe128.go | LWEModel | - |
| lib/client/pir_point.go | PointModel | NewPIR, ReconstructBytes, Reconstruct |
| lib/client/predicate_apir.go | MultiNetModel, PredicateModel | QueryBytes |
| lib/client/predicate_pir.go | PredicateModel | QueryBytes |
| lib/database/bytes.go | FloatModel, PointModel | CreateZeroBytes, InitBytes |
| lib/database/db.go | DirectoryModel, FloatModel, LWEModel, MultiModel, PointModel, PredicateModel | NewKeysDB, NewBitsDB, CreateRandomBitsDB |
| lib/database/elliptic.go | DHModel, FloatModel, RobustModel | - |
| lib/database/lwe.go | BenchModel, LWEModel, SimulModel | - |
| lib/database/lwe128.go | BenchModel | Digest128 |
| lib/database/merkle.go | MultiModel, PointModel | - |
| lib/database/pgp.go | DirectoryModel, EncodingModel, FloatModel, KeyPageModel, SessionModel, TrialModel | maxKeyLength |
| lib/ecc/ecc.go | LWEModel | New |
| lib/field/field.go | BufferModel, FieldModel | RandElement, RandVector |
| lib/fss/client.go | BufferModel, FSSModel | - |
| lib/fss/common.go | BufferModel, FSSModel, GobModel | - |
| lib/fss/server.go | BufferModel, FSSModel | - |
| lib/matrix/matrix.go | BenchModel, MatrixModel, RobustModel | NewWithData, SetData, Rows, Cols, Len |
| lib/matrix/matrix128.go | BenchModel, MatrixModel, RobustModel | Rows, Cols |
| lib/matrix/matrixBytes.go | MatrixModel | SetData, Get, Len |
| lib/merkle/hash.go | MerkleModel | NewBLAKE3, HashLength, Hash |
| lib/merkle/merkletree.go | FloatModel, MerkleModel | New |
| lib/merkle/proof.go | MerkleModel | newProof, VerifyProof |
| lib/monitor/mod.go | FloatModel | iiToS |
| lib/pgp/pgp.go | DirectoryModel, FilesModel, KeyPageModel, PgpHelpModel | isExpired |
| lib/proto/vpir.pb.go | WireModel | all (generated code) |
| lib/proto/vpir_grpc.pb.go | WireModel | all (generated code) |
| lib/query/query.go | GobModel, PredicateModel | IdForEmail, IdForPubKeyAlgo, IdForCreationTime, IdForYearCreationTime |
| lib/server/amplify.go | LWEModel | NewAmplify, DBInfo |
| lib/server/dh.go | DHModel, FloatModel, RobustModel | NewDH |
| lib/server/fss.go | BufferModel, GobModel, PredicateModel | dbInfo |
| lib/server/lwe.go | LWEModel, RobustModel | NewLWE, DBInfo |
| lib/server/lwe128.go | - | NewLWE128, DBInfo, AnswerBytes, Answer |
| lib/server/point.go | KeyPageModel, PointModel | DBInfo |
| lib/server/predicate_apir.go | BufferModel, GobModel, KeyPageModel, MultiNetModel, SessionModel | DBInfo |
| lib/server/predicate_pir.go | BufferModel, GobModel, KeyPageModel, MultiNetModel, SessionModel | DBInfo |
| lib/server/server.go | RPCModel | - |
| lib/utils/config.go | FrontendModel | - |
| lib/utils/encoding.go | EncodingModel | - |
| lib/utils/gauss.go | NoiseModel, PrgModel | - |
| lib/utils/lwe.go | LWEModel | GetDefaultSeedMatrixA |
| lib/utils/profile.go | ProfileModel | StartMemProfiling, writeBlockProfile, StartBlockProfiling |
| lib/utils/rand.go | MultiModel, NoiseModel, PrgModel, SharedModel | MathRand, NewPRG, RandomPRGKey, RandomPRG, RandInt, Seed |
| lib/utils/tls.go | ChannelModel, KeyPageModel | - |
| lib/utils/utils.go | EncodingModel, FloatModel, LWEModel, MultiModel | - |
| simulations/multi/client/client.go | ChannelModel, FloatModel, LogModel, MultiModel, MultiNetModel, SimulModel, WireModel | parseFlags, closeConnections |
| simulations/multi/server/server.go | ChannelModel, FloatModel, LifecycleModel, LogModel, MultiModel, MultiNetModel, SimulModel, WireModel | - |
| simulations/preprocessing.go | BenchModel, MultiModel, ResultsModel, SimulModel | - |
| simulations/simul.go | BenchModel, FloatModel, MultiModel, ProfileModel, ResultsModel, SimulModel | fieldVectorByteLength |
| simulations/types.go | BenchModel, ResultsModel | - |

Not modelled: TLS and gRPC transport (calls are functions that deliver bytes or an error), protobuf encoding, systemd notification, profiling,
CPU-time monitoring, file permissions, memory exhaustion, and the Go runtime's own behaviour beyond panics, mutexes, channels and map order.
Python scripts, plots, Makefiles and deployment files of the repository are not modelled.

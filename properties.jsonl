{"id": "C01", "title": "uint32 slice codec round trip", "statement": "Encoding a slice of uint32 to bytes and decoding it gives back the same slice; decoding any byte slice and re-encoding gives its longest prefix whose length is a multiple of 4 (the remainder is silently dropped).", "quantifier": "every slice of uint32 values; every byte slice of any length", "why_tests_cant": "The input space is unbounded (or astronomically large); tests sample a handful of values.", "anchors": ["lib/utils/encoding.go:Uint32SliceToByteSlice", "lib/utils/encoding.go:ByteSliceToUint32Slice"]}
{"id": "C02", "title": "Matrix wire codec round trip", "statement": "A matrix over Z_2^32 sent as bytes is decoded by the peer to the same dimensions and the same entries.", "quantifier": "every matrix with dimensions below 2^32 and entries in uint32", "why_tests_cant": "The input space is unbounded (or astronomically large); tests sample a handful of values.", "anchors": ["lib/matrix/matrix.go:MatrixToBytes", "lib/matrix/matrix.go:BytesToMatrix"]}
{"id": "C03", "title": "Matrix list wire codec round trip", "statement": "A non-empty list of equally sized matrices (amplified LWE queries/answers/digests) survives encoding and decoding unchanged.", "quantifier": "every non-empty list of matrices of equal shape whose encoding fits in 2^32 bytes", "why_tests_cant": "The input space is unbounded (or astronomically large); tests sample a handful of values.", "anchors": ["lib/matrix/matrix.go:MatricesToBytes", "lib/matrix/matrix.go:BytesToMatrices"]}
{"id": "C04", "title": "128-bit matrix wire codec round trip", "statement": "A matrix over Z_2^128 survives encoding and decoding unchanged.", "quantifier": "every matrix with dimensions below 2^32 and entries below 2^128", "why_tests_cant": "The input space is unbounded (or astronomically large); tests sample a handful of values.", "anchors": ["lib/matrix/matrix128.go:Matrix128ToBytes", "lib/matrix/matrix128.go:BytesToMatrix128"]}
{"id": "C05", "title": "Byte-to-bit expansion is faithful", "statement": "Expanding bytes to bits yields 8 bits per byte, most significant first, and two byte strings expand to the same bits only if they are equal (so distinct record identifiers give distinct predicate inputs).", "quantifier": "every byte string", "why_tests_cant": "The input space is unbounded (or astronomically large); tests sample a handful of values.", "anchors": ["lib/utils/encoding.go:ByteToBits"]}
{"id": "C06", "title": "Merkle proof codec round trip", "statement": "Encoding a Merkle proof and decoding it gives the same hashes and index, and the encoded length is the length advertised by the tree when no two leaves share a fingerprint.", "quantifier": "every proof with 32-byte hashes, fewer than 2^27 hashes and a 32-bit index", "why_tests_cant": "The input space is unbounded (or astronomically large); tests sample a handful of values.", "anchors": ["lib/merkle/proof.go:EncodeProof", "lib/merkle/proof.go:DecodeProof", "lib/merkle/merkletree.go:EncodedProofLength"]}
{"id": "C07", "title": "Block padding is invertible", "statement": "Padding a block (to a multiple of the block length, or with a signal byte followed by any number of zero bytes) and then un-padding returns exactly the original block, whatever its content, and the padded length is a multiple of the block length.", "quantifier": "every block content, including ones ending in 0x00 or 0x80, every positive block length, every amount of trailing zeros", "why_tests_cant": "The input space is unbounded (or astronomically large); tests sample a handful of values.", "anchors": ["lib/database/pgp.go:PadBlock", "lib/database/pgp.go:PadWithSignalByte", "lib/database/pgp.go:UnPadBlock"]}
{"id": "C08", "title": "Un-padding never crashes", "statement": "Un-padding any block handed to the client does not crash. (Refuted: it panics exactly on blocks whose bytes are all zero, including the empty block, which is what an honest server returns for an empty bucket.)", "quantifier": "every byte string", "why_tests_cant": "The input space is unbounded (or astronomically large); tests sample a handful of values.", "anchors": ["lib/database/pgp.go:UnPadBlock", "lib/client/client.go:reconstructPIR", "cmd/grpc/client/manager/mod.go:GetKey"]}
{"id": "C09", "title": "Index to matrix position is a bijection", "statement": "Flat record indices below rows*columns map one-to-one onto positions (row, column) inside the matrix.", "quantifier": "every row/column count and every index", "why_tests_cant": "The input space is unbounded (or astronomically large); tests sample a handful of values.", "anchors": ["lib/utils/utils.go:VectorToMatrixIndices"]}
{"id": "C10", "title": "Field samples are reduced", "statement": "Every field element drawn from a PRG stream is a canonical residue in [0, 2^31-1), for every stream content; sampling consumes the stream in whole 4-byte reads.", "quantifier": "every stream of random bytes on which sampling terminates, every vector length", "why_tests_cant": "Streams are infinite objects; the rejection branch has probability 2^-31 and is never hit by tests.", "anchors": ["lib/field/field.go:RandElementWithPRG", "lib/field/field.go:RandVectorWithPRG"]}
{"id": "C11", "title": "Pseudorandom block to field conversion is reduced and deterministic", "statement": "Converting the same pseudorandom bytes to field elements gives the same reduced element at client and server. (Refuted when a 4-byte group equals 2^31-1 after masking: the replacement is fresh local randomness and is not masked, so it may be as large as 2^32-1; true for all other inputs.)", "quantifier": "every byte string, every local randomness", "why_tests_cant": "The bad event has probability 2^-31 per element.", "anchors": ["lib/field/field.go:toElement", "lib/field/field.go:BytesToElements"]}
{"id": "C12", "title": "Vector negation is additive inversion", "statement": "Negating a vector of reduced elements gives, entry by entry, an additive inverse modulo 2^31-1.", "quantifier": "every vector of reduced elements", "why_tests_cant": "The input space is unbounded (or astronomically large); tests sample a handful of values.", "anchors": ["lib/field/field.go:NegateVector"]}
{"id": "C13", "title": "Field modulus is prime", "statement": "The modulus 2^31-1 used for authentication tags is prime, so every non-zero element is invertible.", "quantifier": "all candidate divisors", "why_tests_cant": "Needs a proof over all divisors, no test states it.", "anchors": ["lib/field/field.go:ModP"]}
{"id": "C14", "title": "FSS shares sum to the point function", "statement": "For a key pair generated for point a and payload b, the two servers' evaluations at x add up modulo 2^31-1 to b when x = a and to 0 when x differs from a.", "quantifier": "every point a of 1 to 256 bits, every input x of the same length, every payload, every seed randomness, every PRF, in executions where no converted group hits the resampling event of C11", "why_tests_cant": "2^256 inputs and all PRFs; tests try one point.", "anchors": ["lib/fss/client.go:GenerateTreePF", "lib/fss/server.go:EvaluatePF"]}
{"id": "C15", "title": "FSS evaluations are reduced except for negated zeros", "statement": "Server 0's evaluation is always in [0,2^31-1); server 1's is in [0, 2^31-1] and still represents the same residue.", "quantifier": "every key, input and PRF", "why_tests_cant": "The input space is unbounded (or astronomically large); tests sample a handful of values.", "anchors": ["lib/fss/server.go:EvaluatePF"]}
{"id": "C16", "title": "FSS keys hide the payload", "statement": "The key sent to one server does not determine the MAC keys. (Refuted: for payload length not a multiple of four the trailing payload elements are shared without any mask, so the last MAC key of the authenticated scheme is readable, up to sign, in each server's key.)", "quantifier": "every point, payload, seed and PRF", "why_tests_cant": "A test compares outputs, not what the key reveals.", "anchors": ["lib/fss/common.go:convertBlock", "lib/fss/client.go:GenerateTreePF", "lib/client/predicate_apir.go"]}
{"id": "C17", "title": "FSS evaluation rejects malformed inputs", "statement": "Evaluating a key on an input of another length does not crash the server. (Refuted: an input longer than the key panics; a shorter one is evaluated silently.)", "quantifier": "every key and input length", "why_tests_cant": "The input space is unbounded (or astronomically large); tests sample a handful of values.", "anchors": ["lib/fss/server.go:EvaluatePF"]}
{"id": "C18", "title": "Predicate COUNT is correct", "statement": "With two honest servers holding the same key records, the reconstructed COUNT equals the number of records satisfying the predicate, modulo 2^31-1, in both the classical and the authenticated scheme, and the authenticated client accepts.", "quantifier": "every database of key records, every predicate kind (e-mail, prefix, suffix, algorithm, creation date, conjunction), every key randomness, every MAC key, excluding the C11 event", "why_tests_cant": "All databases and all random choices.", "anchors": ["lib/client/fss.go:query", "lib/client/fss.go:reconstruct", "lib/server/fss.go:answer", "lib/query/query.go"]}
{"id": "C19", "title": "Predicate AVG is correct", "statement": "With two honest servers in the same calendar year, the reconstructed AVG is the integer quotient of the sum of ages of the matching records by their number.", "quantifier": "every database with at least one matching record whose sums stay below 2^31-1, every randomness excluding the C11 event", "why_tests_cant": "All databases and all random choices.", "anchors": ["lib/client/fss.go:reconstruct", "lib/server/fss.go:answer"]}
{"id": "C20", "title": "Predicate AVG over an empty match set does not crash", "statement": "Asking for the average over no matching record yields an error or zero. (Refuted: the client panics with a division by zero.)", "quantifier": "every database without matching record", "why_tests_cant": "The input space is unbounded (or astronomically large); tests sample a handful of values.", "anchors": ["lib/client/fss.go:reconstruct"]}
{"id": "C21", "title": "A single cheating server cannot change the COUNT", "statement": "If one server of the authenticated scheme answers anything of the right length, the client either returns the honest value or rejects, except for at most one value of each MAC key (at most four if the server sends words above the modulus, which the wire format allows); changing only tags is always rejected; an accepted wrong AVG fixes each MAC key to one of two values.", "quantifier": "every database, query, honest answer, every adversarial answer vector, every MAC key", "why_tests_cant": "Quantifies over all adversarial answers and counts all MAC keys.", "anchors": ["lib/client/fss.go:reconstruct", "lib/client/predicate_apir.go:Reconstruct"]}
{"id": "C22", "title": "Answer length is bound to the query kind", "statement": "The client interprets answers according to the query it made. (Refuted: the length of the first answer selects COUNT or AVG; a server that truncates its AVG answer makes the authenticated client accept and return the count as the average.)", "quantifier": "every AVG query and honest answer pair", "why_tests_cant": "Adversarial answers.", "anchors": ["lib/client/fss.go:reconstruct"]}
{"id": "C23", "title": "Reconstruction does not depend on answer arrival order", "statement": "For answers of equal length the reconstructed predicate result (and the multi-server XOR result) is the same for every order in which the servers' answers arrive.", "quantifier": "every permutation of every list of well-formed answers", "why_tests_cant": "Scheduling of goroutines is not controlled by tests.", "anchors": ["lib/client/fss.go:reconstruct", "lib/client/client.go:reconstructValuePIR", "cmd/grpc/client/main.go:runQueries"]}
{"id": "C24", "title": "Query delivery order is harmless", "statement": "Whatever order the client's connection map is iterated in, an accepted result is the correct one. (Refuted for the command line client: queries are assigned in map order while servers evaluate with fixed identities, and a swapped assignment yields the negated count with valid tags.)", "quantifier": "every iteration order of the connection map", "why_tests_cant": "Go map order is random per run; a test sees one.", "anchors": ["cmd/grpc/client/main.go:runQueries", "cmd/grpc/client/main.go:connectToServers", "lib/server/fss.go:answer"]}
{"id": "C25", "title": "E-mail prefix and suffix identifiers are exact", "statement": "A record matches a prefix (suffix) predicate exactly when the e-mail's first (last) n bytes are the requested ones, and records shorter than n never match.", "quantifier": "every e-mail, every n, every requested text", "why_tests_cant": "The input space is unbounded (or astronomically large); tests sample a handful of values.", "anchors": ["lib/query/query.go:IdForEmail", "lib/query/query.go:ToEmailClientFSS", "lib/server/fss.go:answer"]}
{"id": "C26", "title": "Year based predicates select the requested year", "statement": "A conjunction query for year Y counts keys created in Y and a creation-date query for year Y matches the keys created in Y. (Refuted: month 0/day 0 normalises to 30 November of Y-1, and the conjunction query always uses 2019-0-0, i.e. 2018.)", "quantifier": "every year", "why_tests_cant": "The input space is unbounded (or astronomically large); tests sample a handful of values.", "anchors": ["lib/query/query.go:ToAndClientFSS", "lib/query/query.go:ToCreationTimeClientFSS"]}
{"id": "C27", "title": "Unknown public key algorithm names are rejected", "statement": "A query for an algorithm name outside the known set yields an error. (Refuted: it silently becomes a query for algorithm number 0.)", "quantifier": "every string", "why_tests_cant": "The input space is unbounded (or astronomically large); tests sample a handful of values.", "anchors": ["lib/query/query.go:ToPKAClientFSS"]}
{"id": "C28", "title": "Merkle completeness", "statement": "For a tree over records with pairwise different fingerprints, the proof generated for every record verifies against the root and carries that record's position.", "quantifier": "every non-empty list of records, every hash function with 32-byte output", "why_tests_cant": "The input space is unbounded (or astronomically large); tests sample a handful of values.", "anchors": ["lib/merkle/merkletree.go:NewUsing", "lib/merkle/merkletree.go:GenerateProof", "lib/merkle/proof.go:VerifyProofUsing"]}
{"id": "C29", "title": "Merkle proofs exist for every record even with duplicates or fingerprint collisions", "statement": "GenerateProof succeeds and verifies for every record stored in the tree. (Refuted: duplicates can shrink the proof buffer and panic; a concrete FNV-1a collision yields an honest proof that does not verify.)", "quantifier": "every list of records", "why_tests_cant": "Needs colliding 64-bit fingerprints.", "anchors": ["lib/merkle/merkletree.go:GenerateProof", "lib/merkle/merkletree.go:indexOf"]}
{"id": "C30", "title": "Merkle binding", "statement": "If a proof with as many hashes as the tree is deep verifies for some data, the data is the record at the proof's index, or an explicit hash collision (or preimage of a padding leaf) can be extracted.", "quantifier": "every tree, every data, every proof", "why_tests_cant": "Quantifies over all adversarial proofs.", "anchors": ["lib/merkle/proof.go:VerifyProofUsing", "lib/merkle/proof.go:generateProofHash"]}
{"id": "C31", "title": "Merkle verification alone binds records", "statement": "A verifying proof implies membership, whatever its length. (Refuted for every tree with at least two records and every hash function: an interior node's preimage verifies as a record.)", "quantifier": "every tree with two or more leaves", "why_tests_cant": "Adversarial proof shapes.", "anchors": ["lib/merkle/proof.go:generateProofHash", "lib/client/client.go:reconstructPIR"]}
{"id": "C32", "title": "The Merkle root commits to the record list", "statement": "Two record lists of equal length with the same root are equal or give an explicit hash collision.", "quantifier": "every pair of lists", "why_tests_cant": "The input space is unbounded (or astronomically large); tests sample a handful of values.", "anchors": ["lib/merkle/merkletree.go:NewUsing", "lib/merkle/merkletree.go:Root"]}
{"id": "C33", "title": "Multi-server PIR retrieves the queried record", "statement": "With honest servers, reconstruct returns the queried record followed by zeros up to the maximal block size.", "quantifier": "every database with records of varying length, every index, every number of servers from 3 on (secret sharing) or 2 (DPF, given its correctness), every randomness", "why_tests_cant": "The input space is unbounded (or astronomically large); tests sample a handful of values.", "anchors": ["lib/client/pir_point.go:Query", "lib/server/point.go:Answer", "lib/client/client.go:reconstructValuePIR"]}
{"id": "C34", "title": "Multi-server PIR queries are perfectly private", "statement": "Any coalition missing one server sees query vectors whose distribution over the client's randomness is the same for every queried index.", "quantifier": "every number of servers, every coalition of all but one, every pair of indices, every value of the coalition's view", "why_tests_cant": "A distributional statement over all random strings.", "anchors": ["lib/client/pir_point.go:secretShare"]}
{"id": "C35", "title": "Invalid PIR requests are refused", "statement": "A query with a negative or out-of-range index or with fewer than two servers is rejected. (Refuted: validation uses a conjunction; a single-server query is accepted and carries the index in clear.)", "quantifier": "every index and number of servers", "why_tests_cant": "The input space is unbounded (or astronomically large); tests sample a handful of values.", "anchors": ["lib/client/client.go:invalidQueryInputsIT", "lib/client/pir_point.go:Query"]}
{"id": "C36", "title": "Authenticated point PIR returns the queried record", "statement": "With honest servers and a Merkle database of records with pairwise different fingerprints, the client accepts and returns exactly the queried record.", "quantifier": "every such database, index, randomness", "why_tests_cant": "The input space is unbounded (or astronomically large); tests sample a handful of values.", "anchors": ["lib/database/merkle.go:CreateRandomMerkle", "lib/client/client.go:reconstructPIR"]}
{"id": "C37", "title": "Authenticated point PIR integrity", "statement": "If the client accepts, the returned data is the record at the queried index unless a hash collision is found. (Refuted: the proof index is never compared with the queried index, and the proof depth is taken from the answer.) What holds: accepted data chains to the root.", "quantifier": "every database, query, adversarial answers of one server", "why_tests_cant": "Adversarial answers.", "anchors": ["lib/client/client.go:reconstructPIR"]}
{"id": "C38", "title": "Malformed answers do not crash the client", "statement": "Reconstruction returns an error on every malformed answer. (Refuted for point PIR, FSS and LWE clients.)", "quantifier": "every list of answer byte strings", "why_tests_cant": "Adversarial inputs of unbounded size.", "anchors": ["lib/client/client.go:reconstructPIR", "lib/client/client.go:decodeAnswer", "lib/client/fss.go:reconstruct", "lib/client/lwe.go:ReconstructBytes"]}
{"id": "C39", "title": "Point PIR server is total on well-formed queries and linear", "statement": "The server's answer to a query of at least ceil(columns/8) bytes is, for every row, the XOR of the selected blocks padded to the maximal block size; on shorter queries it panics.", "quantifier": "every database and query bit vector", "why_tests_cant": "The input space is unbounded (or astronomically large); tests sample a handful of values.", "anchors": ["lib/server/point.go:Answer", "lib/server/point.go:xorValues"]}
{"id": "C40", "title": "Matrix products are exact modulo 2^32 and 2^128", "statement": "The C kernels compute the matrix product modulo 2^32 (2^128); the binary kernels agree with the product for 0/1 matrices; the product is associative.", "quantifier": "every shape and content", "why_tests_cant": "The input space is unbounded (or astronomically large); tests sample a handful of values.", "anchors": ["lib/matrix/matrix.c", "lib/matrix/matrix.go:Mul", "lib/matrix/matrix.go:BinaryMul", "lib/matrix/matrix128.go:Mul128"]}
{"id": "C41", "title": "LWE single-server PIR decodes correctly", "statement": "With an honest server the client accepts and returns the stored bit whenever the accumulated noise is below the bound B and the scaling secret is at least 2B away from 0 modulo 2^32.", "quantifier": "every binary database, index, secret, noise vector, scaling secret satisfying the bounds", "why_tests_cant": "The input space is unbounded (or astronomically large); tests sample a handful of values.", "anchors": ["lib/client/lwe.go:Query", "lib/client/lwe.go:Reconstruct", "lib/server/lwe.go:Answer", "lib/database/lwe.go:Digest"]}
{"id": "C42", "title": "LWE PIR never silently returns a wrong bit with an honest server", "statement": "Whatever scaling secret is drawn, the honest result is correct. (Refuted: for scaling secrets close to zero the two acceptance ranges overlap and 1 is read as 0.)", "quantifier": "every scaling secret", "why_tests_cant": "Probability about 2^-15 per query.", "anchors": ["lib/client/lwe.go:Reconstruct"]}
{"id": "C43", "title": "A cheating LWE server flips a bit only by hitting the scaling secret", "statement": "For every fixed deviation of the server's answer, the client accepts the opposite bit for at most 2B-1 ... values of the scaling secret per direction.", "quantifier": "every deviation, every honest state", "why_tests_cant": "Counts all 2^32 secrets.", "anchors": ["lib/client/lwe.go:Reconstruct", "lib/client/lwe.go:inRange"]}
{"id": "C44", "title": "LWE128 decoding is correct and its acceptance range is symmetric", "statement": "As C41 for modulus 2^128; the acceptance range is the open interval (-B,B). (Range symmetry refuted: -B and -(B+1) are accepted.)", "quantifier": "every binary database, index, secret, noise", "why_tests_cant": "The input space is unbounded (or astronomically large); tests sample a handful of values.", "anchors": ["lib/client/lwe128.go"]}
{"id": "C45", "title": "128-bit Gaussian noise is encoded faithfully", "statement": "A noise sample g is stored as g modulo 2^128. (Refuted for every negative sample: stored as g-1.)", "quantifier": "every sample", "why_tests_cant": "The input space is unbounded (or astronomically large); tests sample a handful of values.", "anchors": ["lib/matrix/matrix128.go:NewGauss128"]}
{"id": "C46", "title": "Random matrices have the declared size", "statement": "A random r x c matrix holds r*c entries. (Refuted for the 32-bit version: the backing slice has 4*r*c elements, so its wire encoding is four times too long; the extra elements are never used by products.)", "quantifier": "every r, c", "why_tests_cant": "The input space is unbounded (or astronomically large); tests sample a handful of values.", "anchors": ["lib/matrix/matrix.go:NewRandom"]}
{"id": "C47", "title": "Repetition code decoding", "statement": "Decoding corrects up to t flipped repetitions. (Refuted: any error in the first position makes decoding fail; exactly: decoding succeeds iff the first symbol is a strict majority, and then returns it.)", "quantifier": "every tolerance, message bit and error pattern", "why_tests_cant": "The input space is unbounded (or astronomically large); tests sample a handful of values.", "anchors": ["lib/ecc/ecc.go:Decode", "lib/ecc/ecc.go:Encode"]}
{"id": "C48", "title": "Repetition code never mis-decodes", "statement": "If decoding returns a value, that value occurs in more than half of the positions.", "quantifier": "every received word", "why_tests_cant": "The input space is unbounded (or astronomically large); tests sample a handful of values.", "anchors": ["lib/ecc/ecc.go:Decode"]}
{"id": "C49", "title": "Amplified LWE returns the queried bit", "statement": "With honest servers and all repetitions correct, the amplified client returns the bit; if any repetition rejects, the whole reconstruction rejects.", "quantifier": "every tolerance, database, secrets and noise within bounds", "why_tests_cant": "The input space is unbounded (or astronomically large); tests sample a handful of values.", "anchors": ["lib/client/amplify.go", "lib/server/amplify.go"]}
{"id": "C50", "title": "DH single-server PIR decodes correctly", "statement": "With an honest server the client accepts and returns the stored bit, for every database and all random scalars. (Refuted for groups whose identity has a shorter encoding, such as P-256: an all-zero row makes every retrieval fail. True for fixed-length encodings whenever the blinding is not trivial; otherwise, if no row digest is the identity, at most rows+2 blinding scalars fail.)", "quantifier": "every abelian group of prime order, hash-to-group function, database, index, scalars", "why_tests_cant": "All groups and scalars.", "anchors": ["lib/client/dh.go", "lib/server/dh.go", "lib/database/elliptic.go"]}
{"id": "C51", "title": "A cheating DH server cannot flip a bit without the blinding scalar", "statement": "Whoever makes the client accept a wrong bit thereby computes a Diffie-Hellman value the client never sends; for a fixed answer the client accepts the wrong bit for at most one value of one of its scalars.", "quantifier": "every group, answer, digest", "why_tests_cant": "Counts scalars.", "anchors": ["lib/client/dh.go:ReconstructBytes"]}
{"id": "C52", "title": "DH digest computation covers every row exactly once", "statement": "For every number of rows the parallel digest computation produces one digest per row in row order. (Refuted: rounding up the chunk size leaves some worker with a start beyond the end and the computation panics; true whenever no worker's start exceeds the row count.)", "quantifier": "every row count and worker count, every completion schedule", "why_tests_cant": "The input space is unbounded (or astronomically large); tests sample a handful of values.", "anchors": ["lib/database/elliptic.go:CreateRandomEllipticWithDigest", "lib/server/dh.go:AnswerBytes"]}
{"id": "C53", "title": "Stored keys are retrievable by identifier", "statement": "Every key's packet is stored in the bucket its identifier hashes to, buckets contain nothing else, and every bucket index is inside the table.", "quantifier": "every list of keys, every table length", "why_tests_cant": "The input space is unbounded (or astronomically large); tests sample a handful of values.", "anchors": ["lib/database/pgp.go:makeHashTable", "lib/database/db.go:HashToIndex"]}
{"id": "C54", "title": "All servers build the same key table", "statement": "Servers loading the same keys in any file order build byte-identical tables. (Refuted for duplicate identifiers; true for distinct identifiers for every correct sorting routine.)", "quantifier": "every permutation of the key list", "why_tests_cant": "Order of directory listing and unstable sorting.", "anchors": ["lib/database/pgp.go:sortById", "lib/database/pgp.go:GenerateRealKeyBytes"]}
{"id": "C55", "title": "Key databases of any size can be built", "statement": "Building the key table never crashes. (Refuted: fewer than ten keys give zero buckets and a division by zero, and the authenticated table cannot be built when two non-empty buckets hold equal blocks; true for 10 to 2^35 keys otherwise.)", "quantifier": "every number of keys", "why_tests_cant": "The input space is unbounded (or astronomically large); tests sample a handful of values.", "anchors": ["lib/database/pgp.go:GenerateRealKeyBytes", "lib/database/db.go:HashToIndex"]}
{"id": "C56", "title": "Key directory lookup returns the whole bucket", "statement": "For every stored identifier, the client of an honest deployment (classical or Merkle) gets back exactly the concatenation of the packets of that bucket after un-padding.", "quantifier": "every key list with distinct identifiers, every identifier, every randomness", "why_tests_cant": "End-to-end over all databases.", "anchors": ["cmd/grpc/client/manager/mod.go:GetKey", "lib/database/pgp.go", "lib/client/client.go"]}
{"id": "C57", "title": "The freshest key per e-mail is kept", "statement": "After parsing dumps, the key stored for an e-mail is one with the latest creation time among those seen for it, and the first seen among ties.", "quantifier": "every sequence of key entities", "why_tests_cant": "The input space is unbounded (or astronomically large); tests sample a handful of values.", "anchors": ["lib/pgp/pgp.go:saveKeyIfValid"]}
{"id": "C58", "title": "RPC answers are matched to their queries", "statement": "Every completed RPC returns the answer to its own query, at most once, in every interleaving of callers, worker and cancellations.", "quantifier": "every number of concurrent callers, every schedule and cancellation pattern", "why_tests_cant": "Schedules.", "anchors": ["cmd/grpc/server/main.go:Query", "cmd/grpc/server/main.go:startWorker"]}
{"id": "C59", "title": "Abandoned RPCs never block the worker", "statement": "The worker can always finish the job it is working on, even if the caller has gone.", "quantifier": "every reachable state", "why_tests_cant": "Schedules.", "anchors": ["cmd/grpc/server/main.go:startWorker"]}
{"id": "C60", "title": "Server shutdown is safe", "statement": "Shutting down while queries are in flight never crashes. (Refuted: the queue is closed before in-flight handlers have finished, so a handler can send on a closed channel.)", "quantifier": "every schedule", "why_tests_cant": "Schedules.", "anchors": ["cmd/grpc/server/main.go"]}
{"id": "C61", "title": "Clients detect disagreeing servers", "statement": "If two servers advertise different database parameters the client aborts. (Refuted for the Merkle root, proof length and scheme type; true for the dimensions and block size.)", "quantifier": "every pair of advertised parameters", "why_tests_cant": "The input space is unbounded (or astronomically large); tests sample a handful of values.", "anchors": ["cmd/grpc/client/main.go:equalDBInfo", "cmd/grpc/client/manager/mod.go:GetDBInfos"]}
{"id": "C62", "title": "PRG streams are a function of the seed", "statement": "Two readers with the same key asked for the same sequence of lengths (into zeroed buffers) return the same bytes, so client and server derive the same LWE matrix from the same seed; reads below 16 bytes consume 16 bytes and larger reads into a non-zero buffer are XORed with its content.", "quantifier": "every key stream and read sequence", "why_tests_cant": "The input space is unbounded (or astronomically large); tests sample a handful of values.", "anchors": ["lib/utils/rand.go:Read"]}
{"id": "C63", "title": "Database shape covers the requested records", "statement": "The square layout computed from a record count has at least that many cells, rows equal columns, and no smaller square suffices; the vector layout is exact.", "quantifier": "every record count", "why_tests_cant": "The input space is unbounded (or astronomically large); tests sample a handful of values.", "anchors": ["lib/database/db.go:CalculateNumRowsAndColumns", "lib/utils/utils.go:IncreaseToNextSquare"]}
{"id": "C64", "title": "Maximal block length is order independent and attained", "statement": "The maximal length over a table of byte strings is an upper bound, is attained when the table is non-empty, and does not depend on iteration order.", "quantifier": "every table and iteration order", "why_tests_cant": "The input space is unbounded (or astronomically large); tests sample a handful of values.", "anchors": ["lib/utils/utils.go:MaxBytesLength"]}
{"id": "C65", "title": "Random binary LWE databases are binary", "statement": "Every entry of a generated binary database matrix is 0 or 1 and the matrix has rows*columns entries.", "quantifier": "every random stream and size", "why_tests_cant": "The input space is unbounded (or astronomically large); tests sample a handful of values.", "anchors": ["lib/database/lwe.go:CreateRandomBinaryLWE"]}
{"id": "C66", "title": "The Merkle root is the textbook root", "statement": "The root computed by the array construction is the root of the complete binary tree whose leaves are the hashes of (record, position) padded with zero digests to a power of two.", "quantifier": "every hash and record list up to 2^31 records", "why_tests_cant": "All tree shapes and sizes.", "anchors": ["lib/merkle/merkletree.go:NewUsing", "lib/merkle/merkletree.go:Root"]}
{"id": "C67", "title": "Point functions work for every input length", "statement": "Keys generated for an input of any length evaluate to the payload at that input and to zero elsewhere. (Refuted beyond 256 bits: the input bit number 256 is read as zero during evaluation, so points with that bit set are never hit; exact behaviour proved for every length.)", "quantifier": "every point length, point, input, payload, cipher and randomness", "why_tests_cant": "The input space is unbounded (or astronomically large); tests sample a handful of values.", "anchors": ["lib/fss/client.go:GenerateTreePF", "lib/fss/server.go:EvaluatePF"]}
{"id": "C68", "title": "Predicate servers survive malformed queries", "statement": "A decoded predicate query never crashes the server. (Refuted: missing descriptor, SUM, AVG without AND, unknown target and negative prefix or suffix lengths panic.)", "quantifier": "every database, key and server", "why_tests_cant": "The input space is unbounded (or astronomically large); tests sample a handful of values.", "anchors": ["lib/server/fss.go:answer", "lib/query/query.go:IdForEmail"]}
{"id": "C69", "title": "Texts shorter than the requested prefix or suffix are refused", "statement": "A query whose text is shorter than the requested prefix or suffix length is refused by the client. (Refuted: the client sends an empty point and both servers crash at the first e-mail that is long enough.)", "quantifier": "every text, length, database with a long enough e-mail, every randomness", "why_tests_cant": "The input space is unbounded (or astronomically large); tests sample a handful of values.", "anchors": ["lib/query/query.go:ToEmailClientFSS", "lib/server/fss.go:answer"]}
{"id": "C70", "title": "AVG does not depend on server clocks", "statement": "Two honest servers produce an accepted average whatever their clocks read. (Refuted: each server uses its own current year; around new year the authenticated client rejects honest servers.)", "quantifier": "every pair of clock readings", "why_tests_cant": "Depends on the clock at run time.", "anchors": ["lib/server/fss.go:answer"]}
{"id": "C71", "title": "Malformed predicate answers do not crash the client", "statement": "Whatever a server answers, the client returns a value or an error. (Refuted: an empty answer, or a first answer twice as long as the second, panics; answers with at least the expected number of elements never do.)", "quantifier": "every pair of answers", "why_tests_cant": "The input space is unbounded (or astronomically large); tests sample a handful of values.", "anchors": ["lib/client/fss.go:reconstruct"]}
{"id": "C72", "title": "The two-server command line deployment retrieves the queried record", "statement": "With two servers started as the command line server does, the command line client obtains the queried record. (Refuted: with two connections the client sends DPF keys, the servers are built without DPF evaluation and use the key bytes as a bit vector.)", "quantifier": "every database and index", "why_tests_cant": "The input space is unbounded (or astronomically large); tests sample a handful of values.", "anchors": ["lib/client/pir_point.go:Query", "cmd/grpc/server/main.go:main", "lib/server/point.go:NewPIR"]}
{"id": "C73", "title": "The e-mail a key is filed under", "statement": "The address a key is filed under does not depend on the (random) order in which its identities are visited: it is the lower-cased e-mail of the primary identity, else of the alphabetically first lower-cased e-mail. (Order independence holds; refuted: the choice compares the original spelling bytewise, so Zed precedes amy.)", "quantifier": "every key, every iteration order of its identities", "why_tests_cant": "Go map iteration order is random.", "anchors": ["lib/pgp/pgp.go:PrimaryEmail", "lib/pgp/pgp.go:getEmailAddressFromPGPId"]}
{"id": "C74", "title": "Lookups are insensitive to letter case", "statement": "Looking up an address finds its key however the address is spelt. (Refuted: the text is neither lower-cased before hashing nor before comparison; a text that is not all lower case never yields a key. What is returned is always filed under exactly the text asked for.)", "quantifier": "every text, database, server behaviour, randomness", "why_tests_cant": "The input space is unbounded (or astronomically large); tests sample a handful of values.", "anchors": ["cmd/grpc/client/manager/mod.go:GetKey", "lib/pgp/pgp.go:RecoverKeyFromBlock"]}
{"id": "C75", "title": "Splitting the dump into chunks loses nothing", "statement": "The chunk files concatenated in order are the keys in order; every chunk but the last exceeds 100 MiB and does so only with its last key.", "quantifier": "every list of keys", "why_tests_cant": "The input space is unbounded (or astronomically large); tests sample a handful of values.", "anchors": ["data/main.go:splitFullDumpIntoChunks"]}
{"id": "C76", "title": "From key dump to client", "statement": "Parse the dump, write the keys, split them, load the chunks in any order on every server, build the tables: a client asking for an e-mail address gets the freshest unrevoked key of that address (without subkeys) whenever it is at most 8 KiB, for the classical and the authenticated scheme.", "quantifier": "every dump, address, chunk order, map iteration order, sorting routine, randomness and order of arrival", "why_tests_cant": "End to end over all dumps and schedules.", "anchors": ["lib/pgp/pgp.go", "data/main.go", "lib/database/pgp.go", "cmd/grpc/client/manager/mod.go:GetKey"]}
{"id": "C77", "title": "Every address with a small enough key is served", "statement": "If some unrevoked key of an address is at most 8 KiB, the directory contains the address. (Refuted: the freshest key is chosen before sizes are compared; exactly the freshest keys that fit are written, each address once.)", "quantifier": "every dump", "why_tests_cant": "The input space is unbounded (or astronomically large); tests sample a handful of values.", "anchors": ["lib/pgp/pgp.go:WriteKeysOnDisk", "lib/pgp/pgp.go:saveKeyIfValid"]}
{"id": "C78", "title": "The predicate database has one row per key in a canonical order", "statement": "The predicate database built from a dump has one row per written key in descending order of the addresses, whatever the order of the chunk files; row i describes the key of address i. A key block that holds no or several keys stops the construction.", "quantifier": "every dump, chunk order, sorting routine", "why_tests_cant": "The input space is unbounded (or astronomically large); tests sample a handful of values.", "anchors": ["lib/database/pgp.go:GenerateRealKeyDB", "lib/pgp/pgp.go:LoadAndParseKeys"]}
{"id": "C80", "title": "Cancelled calls return and are not computed", "statement": "A caller whose context is cancelled returns, and the server does not compute answers nobody waits for. (Refuted: a caller blocked on the full queue does not look at its context, and an admitted job is computed even if its caller has gone; a caller that is waiting for its answer can always return when cancelled.)", "quantifier": "every schedule and cancellation pattern", "why_tests_cant": "Schedules.", "anchors": ["cmd/grpc/server/main.go:Query", "cmd/grpc/server/main.go:startWorker"]}
{"id": "C81", "title": "The address list follows the configuration file", "statement": "Address number i is host:port of the table called i, whatever the order in which the file's tables are visited, and a malformed numbering is reported as an error. (Order independence holds for tables 0..n-1; refuted: out-of-range numbers panic, two spellings of one number are accepted with a result that depends on map order, a server started without -id panics.)", "quantifier": "every configuration, every map iteration order", "why_tests_cant": "Go map iteration order is random.", "anchors": ["lib/utils/config.go:LoadConfig", "cmd/grpc/server/main.go:main"]}
{"id": "C82", "title": "Every query reaches the server it was made for", "statement": "With two honest servers the client obtains the right count whatever the order of connections and answers. (True for the connection manager; refuted for the command line client: connections live in a map, and visiting it in the other order yields the negated count with all tags verified; two servers with one address collapse into one connection.)", "quantifier": "every request, database, map order, arrival order", "why_tests_cant": "Go map iteration order is random.", "anchors": ["cmd/grpc/client/main.go:runQueries", "cmd/grpc/client/main.go:connectToServers", "cmd/grpc/client/manager/mod.go:RunQueries"]}
{"id": "C83", "title": "Web pages never show a number for a failed query", "statement": "A page showing a count shows the verified result of the query. (Refuted for the algorithm and creation pages: after an error they go on and print count: 0. Status 200 does imply success.)", "quantifier": "every outcome of the query", "why_tests_cant": "The input space is unbounded (or astronomically large); tests sample a handful of values.", "anchors": ["cmd/grpc/client/web/mod.go:getHandleCountAlgo", "cmd/grpc/client/web/mod.go:getHandleCountTimestamp", "cmd/grpc/client/web/mod.go:getHandleCountEmail"]}
{"id": "C84", "title": "The web e-mail page counts addresses", "statement": "With two honest servers the page shows the number of addresses that begin (end) with the text typed.", "quantifier": "every text, database, arrival order, randomness", "why_tests_cant": "End to end.", "anchors": ["cmd/grpc/client/web/mod.go:getHandleCountEmail", "cmd/grpc/client/web/mod.go:executeStatsQuery"]}
{"id": "C85", "title": "The web server survives its users and its back ends", "statement": "No request and no failing server ends the web server. (Refuted: a year that is not a number, or one failing server, ends the process; missing fields are answered with an error page.)", "quantifier": "every form", "why_tests_cant": "The input space is unbounded (or astronomically large); tests sample a handful of values.", "anchors": ["cmd/grpc/client/web/mod.go", "lib/query/query.go:ToCreationTimeClientFSS"]}
{"id": "C86", "title": "Front ends ask for what was typed", "statement": "The interactive and command line front ends count the addresses that begin (end) with the text, and average over them. (Refuted for the empty text, which becomes a digest comparison with the empty address, for -avg without -and, which panics, and for the interactive prompt 'created before year y', which counts only keys created at one instant of 30 November of year y-1.)", "quantifier": "every text, database, randomness", "why_tests_cant": "The input space is unbounded (or astronomically large); tests sample a handful of values.", "anchors": ["cmd/grpc/client/interactive/mod.go:getCountByEmailQuery", "cmd/grpc/client/interactive/mod.go:getAvg", "cmd/grpc/client/main.go:retrieveComplexQuery"]}
{"id": "C87", "title": "Client and servers with different schemes fail cleanly", "statement": "A client of one predicate scheme talking to servers of the other gets an error. (Never a wrong number: short answers are never accepted; refuted: a classical client's query crashes authenticated servers, the client panics on classical answers, and so does every point client whose servers are predicate servers.)", "quantifier": "every query, database, answer", "why_tests_cant": "The input space is unbounded (or astronomically large); tests sample a handful of values.", "anchors": ["lib/client/fss.go:reconstruct", "lib/fss/server.go:EvaluatePF", "cmd/grpc/client/main.go:equalDBInfo"]}
{"id": "C79", "title": "Predicate clients and servers keep no memory of earlier calls", "statement": "The answer a predicate server gives depends only on the query, its database, the clock and its own randomness, not on the queries it served before, even if one of them panicked and was recovered; likewise for the queries a client makes. (Refuted for calls that overlap on one server value: they spoil each other's answers, so honest answers are rejected or wrong counts accepted; proved: the damage ends with the overlapping calls.)", "quantifier": "every sequence of calls, every interleaving, database, key, randomness", "why_tests_cant": "The input space is unbounded (or astronomically large); tests sample a handful of values.", "anchors": ["lib/fss/common.go:Fss", "lib/fss/server.go:EvaluatePF", "lib/fss/client.go:GenerateTreePF", "lib/server/fss.go:answer", "simulations/multi/server/server.go:Query"]}
{"id": "C88", "title": "The benchmarked amplification reaches its integrity target", "statement": "With the number of repetitions the benchmark driver uses for each database size, the probability (over the client's scaling secrets) that the amplified lattice client accepts a wrong bit is at most 2^-64, whatever the server adds to its answers. (True for stored 0 bits; refuted for stored 1 bits with 1 MiB and 1 GiB, where even honest answers are misread more often; proved levels for any bit: 2^-68, 2^-59, 2^-53.)", "quantifier": "every database of the deployed sizes, index, server deviation, noise and secret; exact counting over all scaling secrets", "why_tests_cant": "A probability of 2^-64 cannot be sampled.", "anchors": ["simulations/simul.go:main", "lib/client/amplify.go:ReconstructBytes", "lib/utils/lwe.go:ParamsWithDatabaseSize"]}
{"id": "C89", "title": "A benchmark run retrieves the blocks it asks for", "statement": "With servers and client started with the same flags, every repetition of the multi-server benchmark retrieves exactly the run of consecutive blocks of the generated data that starts at the random position, and, with three or more servers, logs the number of query bytes; servers that describe different databases stop the client.", "quantifier": "every block length, database size, layout, number of servers, key stream, random start, order of connections and of answers, number of repetitions", "why_tests_cant": "The client drops the blocks it reconstructs, so no run of the benchmark can tell.", "anchors": ["simulations/multi/server/server.go:main", "simulations/multi/client/client.go:retrievePointPIR", "simulations/multi/client/client.go:retrieveDBInfo", "lib/database/bytes.go:CreateRandomBytes", "lib/database/merkle.go:CreateRandomMerkle"]}
{"id": "C90", "title": "A benchmark run measures the requested amount from anywhere in the database", "statement": "Each repetition retrieves the requested number of bits (rounded up to blocks), every block can be retrieved, and all generated data is in the database. (True of the amount for the unauthenticated scheme. Refuted: the authenticated scheme counts proofs as payload and retrieves fewer bits; the last block is never retrieved; asking for the whole database panics; the square layout drops the remainder of the generated blocks.)", "quantifier": "every size, layout, amount and random start", "why_tests_cant": "The input space is unbounded (or astronomically large); tests sample a handful of values.", "anchors": ["simulations/multi/client/client.go:retrievePointPIR", "simulations/multi/client/client.go:bitsToBlocks", "simulations/multi/server/server.go:main"]}
{"id": "C91", "title": "The predicate benchmark runs to completion", "statement": "The random key database consists of well-formed records, and a repetition of the predicate benchmark with two honest servers reconstructs without error whatever the order of connections and answers; any other number of servers stops the client. (Refuted for the default text length, which panics.)", "quantifier": "every number of keys, random draws, text length, order of connections and of answers, client randomness", "why_tests_cant": "Go map iteration order is random.", "anchors": ["simulations/multi/client/client.go:retrieveComplexPIR", "lib/database/db.go:CreateRandomKeysDB", "lib/utils/utils.go:Ranstring", "lib/utils/utils.go:Randate"]}
{"id": "C92", "title": "The preprocessing benchmark builds the database a server would build", "statement": "Every repetition of the Merkle preprocessing benchmark produces the entries of the one-row authenticated database over the same data, whatever number of rows is given and although the block length it keeps changes between repetitions.", "quantifier": "every data, block length, number of rows and of repetitions", "why_tests_cant": "The tables are dropped, so no run can tell.", "anchors": ["simulations/preprocessing.go:RandomMerkleDB", "lib/database/merkle.go:CreateRandomMerkle"]}
{"id": "C93", "title": "Goroutines sharing the random generator get disjoint random data", "statement": "Whatever the interleaving of goroutines that draw words or bounded integers from the process-wide generator, the calls behave as if made one after the other, in an order that respects real time and each goroutine's own order: they consume successive disjoint pieces of one byte stream. Bounded integers are in range, nobody waits forever, and drawing words takes a bounded number of steps. (Refuted: a modulus below one panics with the mutex held, after which no other call ever returns.)", "quantifier": "every schedule, number of goroutines, sequence of calls and cipher keystream", "why_tests_cant": "Races show up in rare schedules only, and overlapping random data looks random.", "anchors": ["lib/utils/rand.go:Uint64", "lib/utils/rand.go:RandInt", "lib/utils/rand.go:Read"]}
{"id": "C94", "title": "The noise is a discrete Gaussian with standard deviation 6.4", "statement": "Over uniformly random words, the sampler returns each value g between -128 and 128 with probability proportional to exp(-g^2/(2*6.4^2)) up to a relative error of 4/10^6 and an absolute error of 2^-52, never another value, g and -g equally often, and how many words were needed tells nothing about the value.", "quantifier": "every value and every number of words consumed", "why_tests_cant": "A distribution cannot be observed in finitely many samples; the tail is far below what sampling can see.", "anchors": ["lib/utils/gauss.go:GaussSample", "lib/utils/gauss.go:cdf_table", "lib/utils/rand.go:Int63"]}
{"id": "C95", "title": "Chunk files hold exactly the keys of the dump", "statement": "Splitting a dump into an empty directory makes files sks-000.pgp, sks-001.pgp, ...; listing the directory and loading all its files gives back exactly the keys of the dump, in order (for dumps below 97 GiB; beyond 1000 chunks the order may change, but nothing is lost or repeated). A second, smaller dump split into the same directory replaces the first. (Refuted: the surplus chunks of the first dump stay and are loaded with the second.)", "quantifier": "every dump and every pair of dumps split one after the other", "why_tests_cant": "The input space is unbounded (or astronomically large); tests sample a handful of values.", "anchors": ["data/main.go:splitFullDumpIntoChunks", "lib/pgp/pgp.go:GetAllFiles", "lib/pgp/pgp.go:LoadKeysFromDisk"]}
{"id": "C96", "title": "The number of key files given to a server decides exactly what it serves", "statement": "A server loads keys if and only if its directory has at least the requested number of entries and the first ones, in order of their names, are complete key files; it then serves exactly their keys, so all keys of a dump need exactly the number of chunks. A server started without the flag serves the whole directory. (Refuted: the default is one file, so the keys of all other chunks are silently missing.)", "quantifier": "every directory content, number of files, slice capacity", "why_tests_cant": "The input space is unbounded (or astronomically large); tests sample a handful of values.", "anchors": ["cmd/grpc/server/main.go:getSksFiles", "cmd/grpc/server/main.go:main", "lib/pgp/pgp.go:GetAllFiles", "lib/pgp/pgp.go:LoadKeysFromDisk"]}
{"id": "C97", "title": "Killing the tool while it splits a dump does no lasting or silent harm", "statement": "Whenever the tool is killed while splitting, what can be loaded afterwards is a prefix of the dump, a record written in part makes loading fail, and running the tool again gives the result of an undisturbed run. An interrupted run is noticed when loading. (Refuted: between records it is not; every prefix of the dump can be loaded without an error.)", "quantifier": "every dump, every crash point between writes and within a write", "why_tests_cant": "Crash points cannot be enumerated by tests.", "anchors": ["data/main.go:splitFullDumpIntoChunks", "lib/pgp/pgp.go:LoadKeysFromDisk"]}
{"id": "C98", "title": "From the dump directory to the servers", "statement": "Parsing a dump into an empty directory and splitting the result into the same directory leaves a directory from which a server asked for as many files as there are chunks loads exactly the keys kept by the parsing, in the order written; asked for fewer, those of the first chunks. (Refuted for one file more: the unsplit file is read too and every key is there twice.)", "quantifier": "every dump directory, map iteration order, serialization, number of files", "why_tests_cant": "The input space is unbounded (or astronomically large); tests sample a handful of values.", "anchors": ["data/main.go:main", "data/main.go:parseSksDump", "data/main.go:splitFullDumpIntoChunks", "lib/pgp/pgp.go:WriteKeysOnDisk", "cmd/grpc/server/main.go:getSksFiles"]}
{"id": "C99", "title": "Parsing reads exactly the dump files", "statement": "The files read by the parsing command are the entries of the dump directory whose name contains sks-dump-, four digits and .pgp, each once and in the order of their names; it succeeds only if all of them are key rings. Other files in the directory do not matter. (Refuted: the pattern is not anchored, so a signature beside a dump file stops the command and a backup copy is read as another dump.)", "quantifier": "every directory", "why_tests_cant": "The input space is unbounded (or astronomically large); tests sample a handful of values.", "anchors": ["lib/pgp/pgp.go:GetSksOriginalDumpFiles", "lib/pgp/pgp.go:GetFilesThatMatch", "data/main.go:parseSksDump"]}
{"id": "C100", "title": "The data tool reports what it did and spares other files", "statement": "Splitting changes only files named like chunks and parsing only sks-full.pgp, whatever is at the path and however the command ends; a wrong command line or a missing path changes nothing and is reported. A command that reports success has produced its output, and one that fails leaves the previous output. (Refuted: genDB does nothing and reports success; a failing split empties the first chunk, a failing parse empties sks-full.pgp.)", "quantifier": "every command line, path content and output directory", "why_tests_cant": "The input space is unbounded (or astronomically large); tests sample a handful of values.", "anchors": ["data/main.go:main", "data/main.go:generateDB", "data/main.go:splitFullDumpIntoChunks", "data/main.go:parseSksDump", "lib/pgp/pgp.go:WriteKeysOnDisk"]}
{"id": "C101", "title": "The C matrix kernels compute the product within defined behaviour", "statement": "Multiplying matrices through the C kernels gives the matrix product modulo 2^32 (2^128), with every index computed by the C code representable, for databases up to and including the largest of the benchmark. (Refuted: the kernels index with 32-bit signed ints, so the behaviour is undefined exactly when one of the three matrices has more than 2^31 elements, i.e. for square databases with a side above 46340; the 1 GiB benchmark is beyond it, those of 1 KiB and 1 MiB are not.)", "quantifier": "every pair of matrices, all dimensions", "why_tests_cant": "The input space is unbounded (or astronomically large); tests sample a handful of values.", "anchors": ["lib/matrix/matrix.c:multiply", "lib/matrix/matrix.c:binary_multiply", "lib/matrix/matrix.c:multiply128", "lib/matrix/matrix.go:Mul", "lib/matrix/matrix128.go:Mul128", "lib/database/lwe.go:CreateRandomBinaryLWEWithLength"]}
{"id": "C102", "title": "A lattice server survives any query", "statement": "Whatever bytes a client sends, the server answers with the product of the received matrix and its database, or reports an error, and the answer depends on nothing but the query and the database. (Refuted: malformed queries crash it, it never reports an error, and a query announcing more words than it carries makes the C kernel read beyond the buffer: a twelve-byte query reveals any later word of memory. What is answered, and how, is characterised exactly, including where mapped memory ends.)", "quantifier": "every query and every database", "why_tests_cant": "whether any byte string can crash the server or read its memory is a claim about all byte strings", "anchors": ["lib/server/lwe.go:AnswerBytes", "lib/server/lwe128.go:AnswerBytes", "lib/server/amplify.go:AnswerBytes", "lib/matrix/matrix.go:BytesToMatrix", "lib/matrix/matrix128.go:BytesToMatrix128"]}
{"id": "C103", "title": "A single-server client survives any answer", "statement": "Whatever bytes the server sends, the client returns a bit, or REJECT, or an error. (Refuted: answers of the wrong size crash the clients; a well-sized lattice answer always ends in a bit or REJECT, other sizes are never accepted, the amplified client accepts exactly the answers whose pieces it accepts with the first bit a majority, and the Diffie-Hellman client accepts only answers with an element for every row and ignores further ones.)", "quantifier": "every answer, every database, every index and all client randomness", "why_tests_cant": "it must hold for every byte string a malicious server can send", "anchors": ["lib/client/lwe.go:ReconstructBytes", "lib/client/lwe128.go:ReconstructBytes", "lib/client/amplify.go:ReconstructBytes", "lib/client/dh.go:ReconstructBytes"]}
{"id": "C104", "title": "The Diffie-Hellman server survives any query", "statement": "Whatever bytes a client sends, the server answers with the row products of the decoded elements or reports an error. (Refuted: it answers exactly the sequences of valid encodings that reach every column holding a 1, reports an error exactly when it meets an invalid encoding, and crashes otherwise, e.g. on the empty query; when the buffer has spare capacity a truncated last element is completed with the bytes found there.)", "quantifier": "every query, every database, every group and every buffer capacity", "why_tests_cant": "it must hold for every byte string a client can send", "anchors": ["lib/server/dh.go:AnswerBytes", "lib/database/elliptic.go:UnmarshalGroupElements"]}
{"id": "C105", "title": "The single-server benchmark reports every length with the sizes of what was sent", "statement": "A completed run reports each configured database length once, with one entry per repetition, whose figures are the sizes of digest, query and answer and depend on the length alone; it completes for every configuration it accepts and has retrieved the stored bits. (The figures and the number of entries are proved, completion and the retrieved bits under stated conditions on the randomness. Refuted: lattice lengths other than 2^13, 2^23 and 2^33 end the run and lose all results; so does one unlucky scalar in the first query of a repetition, since the decoder considers only the first value; the value retrieved is never compared; the figures leave out 8 bytes per matrix and 4 per message.)", "quantifier": "every configuration, list of lengths, number of repetitions, randomness and schedule", "why_tests_cant": "The benchmark drops what it retrieves; an unlucky scalar is rare.", "anchors": ["simulations/simul.go:main", "simulations/simul.go:pirLWE", "simulations/simul.go:pirLWE128", "simulations/simul.go:pirElliptic", "lib/matrix/matrix.go:BytesSize", "lib/ecc/ecc.go:Decode"]}
{"id": "C106", "title": "The key pages show the key of the typed address", "statement": "What the web, interactive and command line clients show for an address is the stored key of that address if the directory has one, and a report that there is none otherwise; never another person's key, whatever the servers answer. (True with at least three honest servers and a non-empty bucket, and the last part always; refuted: an address that leads to an empty bucket crashes every front end, and with two servers existing keys are reported missing.)", "quantifier": "every directory, address, form, server behaviour, randomness, arrival order of descriptions and answers", "why_tests_cant": "The input space is unbounded (or astronomically large); tests sample a handful of values.", "anchors": ["cmd/grpc/client/web/mod.go:gethandleRetreive", "cmd/grpc/client/interactive/mod.go:downloadKey", "cmd/grpc/client/main.go:exec", "cmd/grpc/client/manager/mod.go:GetKey"]}
{"id": "C107", "title": "An authenticated lookup protects against one dishonest server", "statement": "A user of the authenticated scheme (pointVPIR) sees the directory's key of the address or an error, as long as one server is honest. (Only forged keys are excluded, and only if the description that arrives first is honest. Refuted: the client takes the root and the kind of table from the first description, whatever scheme it was started with, so one server can show any key for any address; and one server can make any existing key disappear, since a verified block is not tied to its position.)", "quantifier": "every directory, choice of the dishonest server, forged key, randomness, arrival order", "why_tests_cant": "Needs an adversary.", "anchors": ["cmd/grpc/client/manager/mod.go:GetKey", "cmd/grpc/client/web/mod.go:gethandleRetreive", "cmd/grpc/client/main.go:exec", "lib/client/client.go:reconstructPIR"]}
{"id": "C108", "title": "Servers start and serve what they store", "statement": "Server number i of the configuration, started with a documented scheme, loads its files, listens on address i and serves its keys: from the files on three or more machines to the page that shows a key. (True for the schemes pointPIR, pointVPIR, complexPIR, complexVPIR and numbers below 5. Refuted: none of the schemes named by the usage text starts, and servers with number 5 or above crash after loading, for lack of a certificate.)", "quantifier": "every configuration, directory, scheme, number, runtime behaviour", "why_tests_cant": "Needs deployments with all numbers of servers.", "anchors": ["cmd/grpc/server/main.go:main", "cmd/grpc/server/main.go:loadPgpMerkle", "lib/utils/tls.go:init"]}
{"id": "C109", "title": "A session with the interactive client answers every question", "statement": "With honest servers a session of any number of questions - lookups, counts by address, algorithm or year, averages - shows exactly the right answers, in order; each question is answered as if it were the first, a lookup never shows another address's key whatever the servers answer, and a question that fails says so and lets the session go on. (Refuted: a failing question, or one server that does not describe itself or describes another table, ends the whole program without a word, because the interactive client discards its log.)", "quantifier": "every sequence of questions, every world (servers, orders, randomness) during each", "why_tests_cant": "A session is a history of any length.", "anchors": ["cmd/grpc/client/interactive/mod.go:main", "cmd/grpc/client/interactive/mod.go:downloadKey", "cmd/grpc/client/interactive/mod.go:getStats"]}
{"id": "C110", "title": "The web server answers every request on its own", "statement": "With honest servers each of any number of requests gets the right page - key, missing key, counts - whatever the others ask; a response depends on its own request alone and carries the request's number or the clock; unknown pages, bad forms and the start page need no server; the server keeps running. (Refuted: one request whose year is not a number ends it, and later requests get no answer.)", "quantifier": "every sequence of requests, every world during each", "why_tests_cant": "A history of requests of any length.", "anchors": ["cmd/grpc/client/web/mod.go:main", "cmd/grpc/client/web/mod.go:tracing", "cmd/grpc/client/web/mod.go:handleIndex"]}
{"id": "C111", "title": "The front ends connect to the servers of their configuration", "statement": "A front end that starts is connected to every server of the configuration files named by its environment variables, in the order of their numbers; if one cannot be reached it does not start and names it. (True of the code behind the switch staticConfig. Refuted for the release: the switch is on, so variables and files are ignored, two built-in servers are used, with which no stored key is found; and the interactive client fails silently.)", "quantifier": "every environment, configuration file, set of reachable servers", "why_tests_cant": "The input space is unbounded (or astronomically large); tests sample a handful of values.", "anchors": ["cmd/grpc/client/interactive/mod.go:loadPointManager", "cmd/grpc/client/web/mod.go:loadComplexManager", "cmd/grpc/client/manager/mod.go:Connect"]}
{"id": "C112", "title": "Counting servers count the stored keys", "statement": "Two servers started for predicate queries on machines that store the same keys, in different files, have the same rows, and the web page (complexVPIR) and the command line (complexPIR) show how many stored keys have an address that begins (ends) with the text. (True of the address of the primary identity as written. Refuted: lookups go by the lower-case address of any identity, so a key that is found under an address may not be counted under it; and no key is ever counted as created before a year when the OpenPGP library gives creation times a time zone.)", "quantifier": "every directory, split into files, text, arrival order, randomness", "why_tests_cant": "The input space is unbounded (or astronomically large); tests sample a handful of values.", "anchors": ["cmd/grpc/server/main.go:loadPgpDB", "lib/database/pgp.go:GenerateRealKeyDB", "cmd/grpc/client/web/mod.go:getHandleCountEmail", "lib/server/predicate_apir.go", "lib/server/predicate_pir.go"]}
{"id": "C113", "title": "Sizes computed with floating-point numbers are exact", "statement": "Rounded-up quotients (rows per thread, blocks per retrieval), the next perfect square, the side of a square database, and the depth and width of a Merkle tree are exact although computed in double precision: the first for numbers below 2^53, the squares up to 2^52, the trees up to 2^38 leaves given a logarithm that is accurate to 2^-40 and exact at powers of two. The bounds for squares and quotients are necessary.", "quantifier": "every size up to the bounds, every rounding to nearest, whatever it does with ties", "why_tests_cant": "2^52 sizes cannot be enumerated, and rounding errors hit isolated values.", "anchors": ["lib/utils/utils.go:IncreaseToNextSquare", "lib/database/db.go:CalculateNumRowsAndColumns", "lib/server/dh.go:AnswerBytes", "simulations/multi/client/client.go:bitsToBlocks", "lib/merkle/merkletree.go:NewUsing", "lib/merkle/merkletree.go:EncodedProofLength"]}
{"id": "C114", "title": "The monitor measures the CPU time since its last reset", "statement": "In every history of creations, records and resets, each record is the CPU time used since the creation or the last reset, to a hundredth of a millisecond, and is never negative; records with a reset each add up to the whole.", "quantifier": "every sequence of operations, every ordered sequence of readings of the system clock, every rounding to nearest", "why_tests_cant": "A history of any length; rounding errors depend on the readings.", "anchors": ["lib/monitor/mod.go:NewMonitor", "lib/monitor/mod.go:Reset", "lib/monitor/mod.go:Record", "lib/monitor/mod.go:RecordAndReset"]}
{"id": "C115", "title": "A starting server logs the size of its database", "statement": "The size in GiB a server logs when it starts is that of the database it has loaded. (True of servers for point queries, within one part in 40000 and a millionth of a GiB. Refuted: servers for predicate queries log 0 whatever they have loaded, and the size of a database of 32-bit entries is given as four times what it is.)", "quantifier": "every directory, scheme, machine and rounding to nearest", "why_tests_cant": "The input space is unbounded (or astronomically large); tests sample a handful of values.", "anchors": ["lib/database/bytes.go:SizeGiB", "lib/database/db.go:SizeGiB", "cmd/grpc/server/main.go:main"]}
{"id": "C116", "title": "Clients only talk to the servers of their configuration", "statement": "Servers started with numbers 0 to 4 are accepted by every client at whatever address they run; a client is connected only to holders of a private key of the five built-in certificates while these are valid, and an address where nobody else answers keeps it from starting. Address i of a configuration leads to server i and to nobody else, now and later. (Refuted: every connection accepts every certificate, so one server answering at all addresses is taken for all of them; the private keys are in the source, which warns against using them but offers no other way, so anybody who has read it is accepted as any server; and from 13 January 2027 no client connects to anything.)", "quantifier": "every network (who answers at which address when), configuration, number of servers", "why_tests_cant": "Needs an adversary on the network, and a clock beyond 2027.", "anchors": ["lib/utils/tls.go:init", "lib/utils/tls.go:LoadServersCertificates", "lib/utils/tls.go:ServerPublicKeys", "cmd/grpc/client/manager/mod.go:Connect", "cmd/grpc/client/main.go:connectToServers", "simulations/multi/client/client.go:connectToServer", "cmd/grpc/server/main.go:main", "simulations/multi/server/server.go:main"]}
{"id": "C117", "title": "The servers at the other end of the connections do not learn what is asked", "statement": "Whoever answers on the connections of a lookup or a count learns nothing about the address or the question. (Each server is given its own query and nothing else, and with one connection missing the remaining queries of a lookup fit every column equally well. Refuted when somebody is at the other end of all connections, which the client does not exclude: they read off the column and which of two persons was looked up when their buckets are in different columns, and for counts the function asked.)", "quantifier": "every directory, address, question, randomness, number of servers", "why_tests_cant": "Privacy is a statement about all random choices of the client.", "anchors": ["cmd/grpc/client/manager/mod.go:GetKey", "cmd/grpc/client/manager/mod.go:RunQueries", "lib/client/pir_point.go:secretShare", "lib/client/predicate_apir.go"]}
{"id": "C118", "title": "A key server reports its state to the service manager and stops when told to", "statement": "The service manager is told READY once, when the server listens, and STOPPING once; a server exits normally only after a signal, with every accepted call answered, and having told both; told to stop, it exits once its calls have ended. (Refuted: STOPPING is told at the end, after draining, not at the beginning of the shutdown as the protocol has it; a call on its way into the queue, or arriving right after the signal, crashes the process with a send on a closed channel; a server that crashes or dies never tells STOPPING; a call that does not end keeps it alive against any number of further signals; a notification socket that fails kills it before it waits for signals; in experiments any HTTP request stops it.)", "quantifier": "every interleaving of calls, signals, HTTP requests, failures and steps of the goroutines; every service manager", "why_tests_cant": "Races between a signal and a call.", "anchors": ["cmd/grpc/server/main.go:main", "cmd/grpc/server/main.go:stopWorker", "cmd/grpc/server/main.go:startWorker", "cmd/grpc/server/main.go:Query", "cmd/grpc/sdnotify/sdnotify.go:SdNotify"]}
{"id": "C119", "title": "A benchmark server stops when told to", "statement": "It exits only after a signal or HTTP request, with every accepted call answered, and having been told so it exits once its calls have ended. (True with at most one further request meanwhile. Refuted: three HTTP requests before it stops make it hang for ever, since the shutdown of the HTTP server waits for handlers that wait for somebody to take their request.)", "quantifier": "every interleaving of calls, signals and HTTP requests", "why_tests_cant": "A deadlock that depends on the number and order of requests.", "anchors": ["simulations/multi/server/server.go:main"]}
{"id": "C120", "title": "Calls through the network change nothing", "statement": "A query and its answer, and a server's description, arrive unchanged through the encoding, compression and framing of a remote call; a call that succeeds returned the server's answer to that very query, anything else is an error of the call; and so every lookup shows through the network what it would show with the servers at hand, up to the key of every stored address. (True for messages up to a billion bytes. Refuted beyond 2^30 bytes: such a message never arrives, and one server with answers that long makes every lookup end the client's process.)", "quantifier": "every query, answer, description, handler, directory, compressor that inverts, server behaviour", "why_tests_cant": "The input space is unbounded (or astronomically large); tests sample a handful of values.", "anchors": ["lib/proto/vpir.pb.go:GetQuery", "lib/proto/vpir.pb.go:GetAnswer", "lib/proto/vpir_grpc.pb.go:Query", "lib/proto/vpir_grpc.pb.go:DatabaseInfo", "cmd/grpc/client/manager/mod.go:query", "cmd/grpc/client/manager/mod.go:getDBInfo", "cmd/grpc/server/main.go:main"]}
{"id": "C121", "title": "Bytes received over the network are read with care", "statement": "Fields added by later versions change nothing; no bytes make a server fail other than through its handler, which only gets decoded queries; no server makes the calls of a client end in anything but an answer or an error; a message cut short is never accepted; a description that lacks fields, or has them out of range, is refused. (Refuted for the last: missing fields and fields of another type are zero, so servers that send an empty description are believed and every lookup crashes the client; numbers of 2^32 or more are cut off; of several queries in one message the last one counts.)", "quantifier": "every sequence of bytes, every frame, every server", "why_tests_cant": "it must hold for every byte string a peer can send", "anchors": ["lib/proto/vpir.pb.go:GetNumRows", "lib/proto/vpir.pb.go:GetPirType", "lib/proto/vpir_grpc.pb.go:Query", "cmd/grpc/client/manager/mod.go:getDBInfo", "cmd/grpc/client/manager/mod.go:GetKey"]}
{"id": "C122", "title": "A server asked for profiles writes them and otherwise behaves as before", "statement": "With -prof and -mprof a server does what it does without them; when it ends with status 0 its CPU profile is complete, and when its main function returns both profiles are; a profile that cannot be written is reported before anything is loaded. (Refuted: with -prof an interruption may end the process at once, with status 0, dropping every open call, without telling the service manager and without the memory profile; a memory profile that cannot be created is noticed only at the end and costs the CPU profile; every fatal error loses both.)", "quantifier": "every interleaving of calls, signals, HTTP requests, the profiler and the main goroutine; every combination of flags and unwritable files", "why_tests_cant": "Two goroutines wait for the same signal.", "anchors": ["lib/utils/profile.go:StartProfiling", "lib/utils/profile.go:StopProfiling", "cmd/grpc/server/main.go:main"]}
{"id": "C123", "title": "The client and the benchmark profile their work and report how it ended", "statement": "The CPU profile of the benchmark covers its experiments, and status 0 means that results and profiles are written; the command-line client has status 0 exactly if its lookup succeeded, its profile covers the lookup, and it closes its connections. (True of the benchmark and of the status of an undisturbed client. Refuted: the client stops its profile before it connects, so that it covers the reading of the configuration only; interrupted with -prof it reports success without having looked up anything; it closes its connections only when the lookup panics; a benchmark that only fails to create its memory profile loses its CPU profile.)", "quantifier": "every outcome of every stage, every moment of an interruption", "why_tests_cant": "Needs failures and interruptions at every point.", "anchors": ["cmd/grpc/client/main.go:newLocalClient", "cmd/grpc/client/main.go:main", "cmd/grpc/client/main.go:closeConnections", "simulations/simul.go:main", "lib/utils/profile.go:StartProfiling"]}
{"id": "C124", "title": "From the published dumps to the key a client shows", "statement": "If three or more machines are prepared with the data tool (parse the dumps, then split the file) from the same key dumps and a server is started on each, then for every address the web page, the interactive client and the command-line client show through the network the freshest valid published key of this address, without its subkeys; an address without such a key is answered by saying so. (Refuted in parts: keys above 8192 bytes are left out, and an address whose bucket is empty crashes the client, see C77 and C106.)", "quantifier": "every dump directory, every order in which the tool visits its map on each machine, every configuration, table shape, order of arrival, randomness and address", "why_tests_cant": "The input space is unbounded (or astronomically large); tests sample a handful of values.", "anchors": ["data/main.go:main", "lib/pgp/pgp.go:AnalyzeKeyDump", "cmd/grpc/server/main.go:main", "cmd/grpc/client/main.go:main", "cmd/grpc/client/web/mod.go:main", "cmd/grpc/client/interactive/mod.go:main"]}
{"id": "C125", "title": "From the published dumps to the number a client shows", "statement": "If two machines are prepared with the data tool from the same key dumps and counting servers are started on them, then the number the web page and the command-line client show for addresses that begin or end with a text is the number of current keys of the dumps (the freshest valid key of each address, at most 8192 bytes) whose address does so; replaced and revoked keys are not counted. (The text is compared with the name of the primary identity of the key; see C112 for keys filed under another address.)", "quantifier": "every dump directory, every order in which the tool visits its map, every text, clock, randomness and order of arrival", "why_tests_cant": "The input space is unbounded (or astronomically large); tests sample a handful of values.", "anchors": ["data/main.go:main", "lib/pgp/pgp.go:AnalyzeKeyDump", "lib/database/pgp.go:GenerateRealKeyDB", "lib/server/fss.go:answer", "cmd/grpc/client/main.go:retrieveComplexQuery"]}
{"id": "C126", "title": "Predicate queries as bytes", "statement": "Questions and queries travel as encoding/gob streams between processes that number their types independently. Whatever is encoded in one process is decoded to the same question or query in another; a query cut off anywhere is refused with an error; the front ends, the command-line client and the servers give the same results as if values were handed over directly, so that the web page and the command line show the numbers of C125 when every description, question, query and answer travels as bytes. With the same random bytes the size of a query depends only on the number of bits asked about and on the random final words.", "quantifier": "every question of up to forty million bits, every key, every numbering of the types that the receiver recognises, every cut, every dump, text, clock and order of arrival", "why_tests_cant": "The input space is unbounded (or astronomically large); tests sample a handful of values.", "anchors": ["lib/query/query.go:DecodeClientFSS", "lib/query/query.go:Encode", "lib/client/fss.go:queryBytes", "lib/server/fss.go:answerBytes", "cmd/grpc/client/main.go:retrieveComplexQuery", "cmd/grpc/client/web/mod.go:executeStatsQuery"]}
{"id": "C127", "title": "The multi-server benchmark for predicate queries completes and logs what it sent", "statement": "Servers 0 and 1 of the multi-server benchmark, started with the same predicate scheme and configuration, and a client with that scheme, two servers and a text length of 1 to 1000000: whatever the random draws, the order in which the client visits its connections and in which answers arrive, every repetition ends, and the number of bytes the client logs for it is 304 per byte of the text plus a number fixed by the client program, give or take 68; it does not depend on the keys of the servers, and the result the client drops is the number of addresses of the servers that start with the text, or its negation modulo 2^31-1. A server with a listed number listens at the address of that number and describes itself as 100000 columns. (Refuted: a server crashes instead of reporting an error when its number is not in the configuration, and when its flags give no size of blocks, which predicate queries do not have; with another number of servers no repetition ends.)", "quantifier": "Every configuration, numbering of types, text length, random draws, number of keys and repetitions, orders of connections and of answers.", "why_tests_cant": "The input space is unbounded (or astronomically large); tests sample a handful of values.", "anchors": ["simulations/multi/client/client.go:retrieveComplexPIR", "simulations/multi/client/client.go:exec", "simulations/multi/client/client.go:retrieveDBInfo", "simulations/multi/server/server.go:main", "simulations/multi/server/server.go:Query", "simulations/multi/server/server.go:DatabaseInfo", "simulations/multi/server/server.go:readServerID"]}
{"id": "C128", "title": "The multi-server benchmark for point queries retrieves through the network and logs what it sent", "statement": "Servers of the multi-server benchmark started with the numbers 0, 1, ... and the same flags for a point-query scheme, and a client with their configuration and number: through the network, every repetition retrieves exactly the blocks it asks for, whatever the random draws, the order in which the client visits its connections, the order in which descriptions and answers arrive, and the number of bytes it logs is, for every block and server, the length of a key of the function shares when there are two servers and one byte for every eight columns plus one otherwise. Answers have to stay below the limit of the network on messages.", "quantifier": "Every configuration, flags, key stream of the generator, number of servers, draws, start, amount, repetitions, orders of connections, descriptions and answers.", "why_tests_cant": "The input space is unbounded (or astronomically large); tests sample a handful of values.", "anchors": ["simulations/multi/client/client.go:retrievePointPIR", "simulations/multi/client/client.go:exec", "simulations/multi/client/client.go:retrieveDBInfo", "simulations/multi/client/client.go:runQueries", "simulations/multi/server/server.go:main", "simulations/multi/server/server.go:Query", "simulations/multi/server/server.go:DatabaseInfo"]}
{"id": "C129", "title": "Addresses in user ids are found, and keys load from files as the entities that were written", "statement": "The address found in the text of a user id is the first one written in angle brackets there, in any surrounding text, and an error is returned exactly if there is none; addresses under every top-level domain are found. (Refuted: an address whose last part has eleven letters or more, such as .photography, is never found.) Loading key files as entities returns exactly the entities that were serialized into them, in the order of the files and of the keys inside; a file that cannot be read, or a key whose bytes hold no entity or several, gives an error wherever it is, and no entity is left out silently.", "quantifier": "Every text of a user id, every address, all lists of files, keys and entities, and every key ring reader.", "why_tests_cant": "The input space is unbounded (or astronomically large); tests sample a handful of values.", "anchors": ["lib/pgp/pgp.go:LoadAndParseKeys", "lib/pgp/pgp.go:getEmailAddressFromPGPId", "lib/pgp/pgp.go:compileRegexToMatchEmail"]}
{"id": "C130", "title": "The figures of the multi-server benchmark show what was sent and measured", "statement": "From the log file of a client that completed its repetitions the plotting script reads exactly the number of bytes and the time of every repetition, in order, and from the log file of a server the length of every answer it sent, whatever the times of the lines, the order of the requests, and the other messages; so that for every repetition the figure shows the bytes of all its queries and of all the answers to them. For the predicate benchmark this holds from the run itself: what is shown are the queries the client sent and the answers the servers computed for them. (Refuted: with several blocks in a repetition only one answer of each server is counted, so the figure shows too little; and an address or a log file name that contains the word stats stops the script.)", "quantifier": "Every number of repetitions, servers and blocks, all times, lengths, names and orders of requests, and every completed run of the predicate benchmark.", "why_tests_cant": "The input space is unbounded (or astronomically large); tests sample a handful of values.", "anchors": ["simulations/multi/client/client.go:retrieveComplexPIR", "simulations/multi/client/client.go:retrievePointPIR", "simulations/multi/server/server.go:Query", "simulations/multi/plot.py:parseClientLog", "simulations/multi/plot.py:parseServerLog"]}
{"id": "C131", "title": "The figures of the single-server benchmark are the recorded measurements", "statement": "Whatever results a run of the single-server benchmark records, the file it writes is read back by the plotting script as exactly those results: every length once, with the size of its digest and the medians of its query sizes, answer sizes and times. The cells of the printed table and the heights of the bars, in the units printed beside them, are the size of the digest, the size of query plus answer and the time of a retrieval of that scheme and database size; for the schemes based on lattices this can be followed from the run to the table, whose sizes then depend on the length alone. The Diffie-Hellman scheme has no figure for 1 GiB, which it does not run. The curve of the preprocessing benchmark shows every size with its own time (Refuted: times are sorted apart from the sizes, so if a larger database takes less time the two are exchanged; proved when the times grow with the size).", "quantifier": "every list of results of every length, all recorded times, every way of writing numbers that reads back, every scheme, size and metric; every configuration and every run for the composed statements", "why_tests_cant": "a test draws a few result files; a file with an even number of repetitions, sizes whose order as text differs from that as numbers, or times that do not grow is a different path each", "anchors": ["simulations/simul.go:main", "simulations/simul.go:initChunk", "simulations/simul.go:initBlock", "simulations/preprocessing.go:RandomMerkleDB", "simulations/types.go:Experiment", "simulations/utils.py:parseResults", "simulations/utils.py:allStats", "simulations/plot.py:plotSingle", "simulations/plot.py:plotPreprocessing"]}
{"id": "C132", "title": "The numbers printed about the deployment are the measured ones", "statement": "When command-line clients and key servers run in experiment mode and their output is collected in files, the plotting script recovers from a client's file, for every number of cores, the bytes of the queries and the times of exactly the runs that came to their end, in order, and from a server's file the lengths of exactly the answers it gave. The table row of a predicate query shows the median time and the median, over the runs, of the bytes of a run's queries and of the answers of both servers to it, and the ratio of the kilobytes with and without authentication; for point queries the printed time is the median time plus the delay between the machines. (Refuted: a run that fails after the servers have answered makes the script pair later runs with the wrong answers; the delay of 0.376 milliseconds is added as 0.376 seconds; a retrieved key whose text contains the letters of the word stats makes the script fail; from one megabyte on the script fails instead of printing the ratio.)", "quantifier": "every list of client runs that end or die, every list of server processes, all requests, answers and errors, all numbers of cores, clocks, interleavings of the log lines of the requests, and printed keys", "why_tests_cant": "a test parses one tidy log; the failures need a run that dies, a key with an unlucky text or a large transfer, and the unit of the delay is not visible in any single output", "anchors": ["cmd/grpc/client/main.go:retrieveComplexQuery", "cmd/grpc/client/main.go:retrieveKeyGivenId", "cmd/grpc/client/main.go:queryServer", "cmd/grpc/server/main.go:startWorker", "cmd/grpc/server/main.go:Query", "simulations/utils.py:parseLog", "simulations/utils.py:meanFromDict", "simulations/plot.py:plotReal", "simulations/plot.py:plotRealComplex", "simulations/plot.py:rounder2", "simulations/real/real_client_fss.sh"]}
{"id": "C133", "title": "The script of the multi-server benchmarks measures what its settings say and plots every run from its own files", "statement": "When the script that drives the multi-server benchmarks runs an experiment, the servers and the client of every run are started with the scheme, database size, element size, shape, repetitions, bits and number of servers of the settings, both with the name of that run's own log file. The servers it starts listen at the addresses at which clients look for them. After the experiment, every point of the figures is made from exactly the log files of its own run: that of the client and those of its servers, whatever was among the results before and whatever the other runs wrote; so the point experiment shows for every repetition the bytes of its queries and of the answers to them. Unused servers leave no file behind. (Refuted: if the tables of the configuration are not written in the order of their numbers, a server is started on the machine of another one's address; a run that needs more servers than are configured is not reported: the client panics.)", "quantifier": "all settings, database lengths, numbers of servers and input sizes in the range of the programs' integers, all contents of the log files and of the directory of results, every order of the tables of the configuration, all runs of the point benchmark over the network", "why_tests_cant": "the script can only be run on several machines and takes hours; a wrong flag, a shared log file or a wrong file name gives a figure that looks plausible, for one of many runs", "anchors": ["simulations/multi/simul.py:server_pir_command", "simulations/multi/simul.py:client_pir_command", "simulations/multi/simul.py:experiment_pir", "simulations/multi/simul.py:experiment_pir_multi", "simulations/multi/simul.py:experiment_fss", "simulations/multi/simul.py:servers_addresses", "simulations/multi/plot.py:getClientStats", "simulations/multi/plot.py:getServerStats", "simulations/multi/server/server.go:main", "simulations/multi/client/client.go:parseFlags"]}
{"id": "C134", "title": "The script that chooses the repetitions of the amplified scheme prints the least tolerance that reaches the error", "statement": "For every database size and target error, the script that chooses the parameters of the amplified lattice scheme prints the noise bound (the least integer that is at least 6.4 times the square root of 128 times the size) and the least tolerance t for which its error formula is at most the target; the benchmark uses the values printed for 2^-64; and a client with the printed tolerance reads a wrong bit with at most the printed probability, whatever the server adds to its answers. (True for stored 0 bits if the client uses the bound of the script. Refuted: the client's own bound is larger for every square database, and for stored 1 bits the values printed for 2^-128 are exceeded for every size even with honest answers; for stored 0 bits they are exceeded at 1 KiB by a server that adds 2^31 to the column asked for in its first t+1 answers.)", "quantifier": "every database size below 2^40, target error and range of tolerances; every database, index, server deviation, noise and secret; exact counting over all scaling secrets", "why_tests_cant": "a probability of 2^-128 cannot be sampled, and the script's formula is not connected to the client by any code", "anchors": ["scripts/integrity_amplification.py", "simulations/simul.go:main", "lib/client/amplify.go:NewAmplify", "lib/utils/lwe.go:computeB"]}

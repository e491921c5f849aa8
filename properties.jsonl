{"id": "C01", "title": "Byte-order conversion reverses the object representation", "statement": "Converting a value from little-endian to big-endian order (or back) yields the integer whose bytes in memory are exactly the bytes of the argument in the opposite order; converting to the order the value already has is the identity.", "quantifier": "every value of every supported width (8, 16, 32, 64 bits), signed and unsigned, and every pair of supported byte orders", "why_tests_cant": "2^64 inputs per width; a wrong mask or shift for one byte position can hide behind any finite sample", "anchors": ["include/FlameIDE/Templates/ByteOrder.hpp: ToNeedOrder, reverseBytes"]}
{"id": "C02", "title": "Byte-order conversion is lossless", "statement": "Converting to an order and back to the host order returns the original value (FromBigEndian(ToBigEndian(v)) = v and likewise for little endian); in particular the conversion is a bijection.", "quantifier": "every value of every supported width, signed and unsigned", "why_tests_cant": "universally quantified over all machine integers", "anchors": ["include/FlameIDE/Templates/ByteOrder.hpp: ToBigEndian, FromBigEndian, ToLittleEndian, FromLittleEndian"]}
{"id": "C03", "title": "Serialise-then-deserialise round trip", "statement": "Writing any sequence of integers with a Serializer of some byte order into a buffer large enough, then reading the same sequence of types with a Deserializer of the same order from that buffer, yields the same values in the same sequence; both report the same number of bytes per element.", "quantifier": "every sequence (any length) of values of any mixture of supported widths, both byte orders, any initial buffer content", "why_tests_cant": "ranges over all sequences of all values", "anchors": ["include/FlameIDE/Templates/Serialization/Serializer.hpp: Serializer::operator()", "include/FlameIDE/Templates/Serialization/Deserializer.hpp: Deserializer::operator()"]}
{"id": "C04", "title": "Serialized layout is the chosen byte order and nothing else is touched", "statement": "After serialising a sequence, the buffer prefix is the concatenation of the big-endian (little-endian) representations of the values, its length is the sum of the returned byte counts, and every byte of the buffer after that prefix is unchanged.", "quantifier": "every sequence of values, both orders, every buffer", "why_tests_cant": "all values, all sequences, all buffers", "anchors": ["include/FlameIDE/Templates/Serialization/Serializer.hpp"]}
{"id": "C05", "title": "Partial-value serialization", "statement": "A SpecializedValue exposes exactly the selected significant bytes of a value in the requested byte order; serialising it and deserialising it again into an empty SpecializedValue of the same size and offset restores exactly these bytes, for equal and for opposite orders of serializer and value.", "quantifier": "every value, every size and offset with size + offset <= sizeof(value), every combination of the two orders", "why_tests_cant": "all values, all slices", "anchors": ["include/FlameIDE/Templates/Serialization/SpecializedValue.hpp", "include/FlameIDE/Templates/Serialization/Serializer.hpp", "include/FlameIDE/Templates/Serialization/Deserializer.hpp"]}
{"id": "C06", "title": "StaticVector behaves as a bounded sequence", "statement": "After any history of pushBack, emplaceBack, popBack, insert (one element or a range), erase (one element or a range), clean and reset, the visible contents equal the list obtained by performing these operations on a mathematical sequence where an operation that would exceed the capacity is a no-op; size() is the length of that list and never exceeds capacity().", "quantifier": "every capacity, every element type, every finite history of operations with valid positions", "why_tests_cant": "unbounded histories; element shifting loops must be right for every position and size", "anchors": ["include/FlameIDE/Templates/Array.hpp: StaticVector pushBack, popBack, insert, erase, size, clean"]}
{"id": "C07", "title": "StaticVector element lifetimes", "statement": "Every element constructed in the container's storage is destroyed exactly once, no raw cell is ever read, assigned or destroyed, and no live cell is constructed over - over the whole life of the container including its destructor.", "quantifier": "every history of operations", "why_tests_cant": "lifetime errors are silent for trivially destructible test element types", "anchors": ["include/FlameIDE/Templates/Array.hpp: StaticVector insert, erase, popBack, ~StaticVector"]}
{"id": "C08", "title": "StaticVector equality decides element-wise equality", "statement": "a == b returns true exactly when both containers have the same size and equal elements at every index.", "quantifier": "all pairs of containers", "why_tests_cant": "a comparison that looks at too few elements agrees with the correct one on most hand-written examples", "anchors": ["include/FlameIDE/Templates/Array.hpp: StaticVector::operator=="]}
{"id": "C09", "title": "StaticArray assignment and clone copy every cell", "statement": "After a = b (or a = b.clone()) every cell of a equals the corresponding cell of b.", "quantifier": "every pair of arrays of every size", "why_tests_cant": "all sizes, all contents", "anchors": ["include/FlameIDE/Templates/Array.hpp: StaticArray::operator=, StaticArray::clone, StaticArray::operator=="]}
{"id": "C10", "title": "CircularArray is a bounded FIFO queue", "statement": "For every history of pushBack (copy, move, range), emplaceBack, popFront and clean starting from the empty container, the elements seen by iterating from begin() to end() are the elements pushed and not yet popped, in push order; pushing to a full container and popping an empty one change nothing; size() is the number of elements and never exceeds the declared capacity.", "quantifier": "every capacity >= 1, every history", "why_tests_cant": "wrap-around arithmetic must be right for every head position and fill level reachable by any history", "anchors": ["include/FlameIDE/Templates/CircularArray.hpp: pushBack, popFront, size, begin, end"]}
{"id": "C11", "title": "CircularArray range push is all-or-nothing", "statement": "pushBack(range) appends all elements of the range in order when they fit in the free space and otherwise changes nothing at all.", "quantifier": "every reachable state, every range length", "why_tests_cant": "all fill levels x all wrap positions x all range lengths", "anchors": ["include/FlameIDE/Templates/CircularArray.hpp: pushBack(Range)"]}
{"id": "C12", "title": "Read-only traversal and copies of CircularArray see the queue contents", "statement": "Iterating a const CircularArray, or copying it, yields the same sequence of elements as iterating the non-const container.", "quantifier": "every reachable state", "why_tests_cant": "holds in states where nothing has been popped; tests that never pop before copying cannot see a violation", "anchors": ["include/FlameIDE/Templates/CircularArray.hpp: cbegin, cend, CircularArray(const CircularArray &)"]}
{"id": "C13", "title": "Vector behaves as an unbounded sequence", "statement": "For every history of pushBack, emplaceBack, popBack, insert, erase, reserve, resize (growing) and clean on a default constructed Vector, the visible contents equal the mathematical sequence; size() is its length and size() <= capacity() holds; reallocation never loses, duplicates or reorders an element.", "quantifier": "every history", "why_tests_cant": "growth boundaries are reached only for particular interleavings of operations", "anchors": ["include/FlameIDE/Templates/Vector.hpp: pushBack, insert, erase, reserve, resize, nextCapacity"]}
{"id": "C14", "title": "Vector growth always makes progress", "statement": "Every call of pushBack terminates and appends the element, whatever the current capacity, in particular for vectors obtained by copying or from an initializer list.", "quantifier": "every reachable capacity", "why_tests_cant": "fails only at specific small capacities; the failure is unbounded recursion", "anchors": ["include/FlameIDE/Templates/Vector.hpp: pushBack, nextCapacity, Vector(const Vector &)"]}
{"id": "C15", "title": "A moved-from Vector is empty and reusable", "statement": "After b(move(a)), b has the former contents of a, a is empty, and every operation that is valid on an empty vector is valid on a.", "quantifier": "every vector and every following history", "why_tests_cant": "use after move rarely appears in unit tests", "anchors": ["include/FlameIDE/Templates/Vector.hpp: Vector(Vector &&)"]}
{"id": "C16", "title": "Vector copies are independent and equal", "statement": "A copy constructed Vector and an assigned Vector have exactly the contents and size of their source, and later operations on one never affect the other.", "quantifier": "all vectors, all later histories", "why_tests_cant": "all sizes and capacities", "anchors": ["include/FlameIDE/Templates/Vector.hpp: Vector(const Vector &), operator="]}
{"id": "C17", "title": "List behaves as a sequence with consistent forward and backward links", "statement": "For every history of pushBack, pushFront, insert, popBack, popFront, erase and clean that the documentation allows, walking forward from begin() gives the mathematical sequence, walking backward from the last element gives its reverse, and no freed node is reachable.", "quantifier": "every history", "why_tests_cant": "pointer structures reachable by arbitrary histories; dangling links stay silent until memory is reused", "anchors": ["include/FlameIDE/Templates/List.hpp: pushBack, pushFront, insert, erase, popBack, popFront"]}
{"id": "C18", "title": "An empty List can be inspected", "statement": "On a list without elements size() is 0, begin() equals end(), and iterating visits nothing.", "quantifier": "every way of reaching the empty list (default construction, clean, erasing or popping all elements)", "why_tests_cant": "many histories lead to the empty list", "anchors": ["include/FlameIDE/Templates/List.hpp: size, begin, end, popBack, popFront, erase"]}
{"id": "C19", "title": "A List drained to empty can be refilled", "statement": "After the last element was removed by popBack, popFront or erase, pushing again yields a one-element list and never touches freed memory.", "quantifier": "every history that drains the list", "why_tests_cant": "use-after-free is not visible as a failing assertion", "anchors": ["include/FlameIDE/Templates/List.hpp: popBack, popFront, erase, pushBack"]}
{"id": "C20", "title": "String stays NUL terminated inside its buffer", "statement": "For every history of String operations starting from a constructed string, the character at data()[length()] exists, is the terminator, lies inside the allocated buffer, and no operation writes outside the buffer.", "quantifier": "every history of operations, every character content", "why_tests_cant": "one-byte overruns are invisible to assertions", "anchors": ["include/FlameIDE/Templates/String.hpp: pushBack, insert, erase, operator="]}
{"id": "C21", "title": "String operations edit the character sequence", "statement": "pushBack, popBack, insert, erase, assignment and concatenation have on the visible characters the effect of the corresponding list operation.", "quantifier": "every string, every position, every argument", "why_tests_cant": "all strings", "anchors": ["include/FlameIDE/Templates/String.hpp"]}
{"id": "C22", "title": "Integer to text conversion is exact", "statement": "toString(n) is the canonical decimal representation of n: an optional minus sign followed by the digits without leading zeros; parsing it gives back n.", "quantifier": "every value of every integer type, including the extreme values", "why_tests_cant": "2^64 values; errors concentrate at powers of ten and extreme values", "anchors": ["include/FlameIDE/Templates/StringConvertions.hpp: NumberChecker, BufferSize, convert, toString"]}
{"id": "C23", "title": "Integer to text conversion is memory safe", "statement": "toString(n) never writes outside the buffer it allocates.", "quantifier": "every integer value", "why_tests_cant": "one-byte overruns are invisible to assertions", "anchors": ["include/FlameIDE/Templates/StringConvertions.hpp: convert", "include/FlameIDE/Templates/String.hpp: pushBack"]}
{"id": "C24", "title": "UniquePointer owns its object exactly once", "statement": "For every history of construction, move construction, move assignment, clean and destruction of any number of UniquePointers, every object created is destroyed exactly once at the latest when its last holder is destroyed, never twice, and no UniquePointer ever refers to a destroyed object.", "quantifier": "every number of pointers, every history", "why_tests_cant": "histories of arbitrary length and aliasing patterns", "anchors": ["include/FlameIDE/Templates/Pointers.hpp: UniquePointer"]}
{"id": "C25", "title": "SharedPointer keeps its object alive exactly as long as it has owners", "statement": "The object held by a group of SharedPointers is destroyed exactly when the last owner releases it: never while another owner exists, and always when none exists.", "quantifier": "every history of copies, moves, assignments, clean and destruction", "why_tests_cant": "depends on the order in which owners are released", "anchors": ["include/FlameIDE/Templates/Pointers.hpp: SharedPointer, Counter"]}
{"id": "C26", "title": "Variant remembers the last stored alternative", "statement": "After set<T>(v) the variant is set, its index is that of T, get<T>() gives v, and get<U>() is null for every other alternative U; after reset() every get<T>() is null.", "quantifier": "every alternative list, every history of set, reset, copy and move", "why_tests_cant": "all histories", "anchors": ["include/FlameIDE/Templates/Variant.hpp: Variant::set, get, reset, VariantStruct"]}
{"id": "C27", "title": "Variant object lifetimes", "statement": "Each object stored in a Variant is destroyed exactly once, whatever sequence of set, reset, assignment and destruction happens; storing a new alternative destroys the previous one first.", "quantifier": "every history of operations on any number of variants", "why_tests_cant": "lifetime errors are silent for trivial types", "anchors": ["include/FlameIDE/Templates/Variant.hpp: Variant::operator=, set, reset, ~Variant"]}
{"id": "C28", "title": "Variant assignment copies the source state", "statement": "After a = b the state of a (unset, or which alternative with which value) equals the state of b; equality of variants is reflexive.", "quantifier": "all pairs of states", "why_tests_cant": "includes the unset state, which is easily forgotten", "anchors": ["include/FlameIDE/Templates/Variant.hpp: Variant::operator=, operator=="]}
{"id": "C29", "title": "Index access to a Variant is checked", "statement": "get<INDEX>() returns a non-null pointer only if the alternative INDEX is the stored one.", "quantifier": "every state and index", "why_tests_cant": "all states", "anchors": ["include/FlameIDE/Templates/Variant.hpp: Variant::get<INDEX>"]}
{"id": "C30", "title": "Optional assignment copies the source state", "statement": "After a = b, a holds a value iff b did, and then the same value; set() makes it filled, unset() makes it empty.", "quantifier": "all pairs of states, all histories", "why_tests_cant": "all histories; the empty source is easily forgotten", "anchors": ["include/FlameIDE/Templates/Optional.hpp: operator=, set, unset, init"]}
{"id": "C31", "title": "Optional object lifetimes", "statement": "Every value constructed inside an Optional is destroyed exactly once and no value is destroyed that was not constructed.", "quantifier": "every history of operations", "why_tests_cant": "lifetime errors are silent for trivial types", "anchors": ["include/FlameIDE/Templates/Optional.hpp: set, unset, init, ~Optional"]}
{"id": "C32", "title": "Expected destroys its payload exactly once", "statement": "Over any history of assignments, handler calls and destruction, every result or error object constructed inside an Expected is destroyed exactly once.", "quantifier": "every history of operations on any number of Expected objects", "why_tests_cant": "double destruction is silent for trivial payloads", "anchors": ["include/FlameIDE/Common/Expected.hpp: Expected::operator=, destroy, ifResult, ifError, ~Expected"]}
{"id": "C33", "title": "Expected calls exactly the matching handler, at most once", "statement": "For an Expected holding a result, ifResult(f).ifError(g) calls f exactly once with the stored value and never g; with an error it calls g exactly once and never f; with neither it calls none of them. After a consuming call the Expected is in the unknown state and no handler is called again.", "quantifier": "every payload, every chain of handler calls", "why_tests_cant": "arbitrary call chains", "anchors": ["include/FlameIDE/Common/Expected.hpp: ifResult, ifError", "include/FlameIDE/Templates/Expected.hpp: ifResult, ifError, done"]}
{"id": "C34", "title": "Type-erased Object destroys what it stores exactly once", "statement": "An Object destroys the value it holds exactly once, when it is reassigned, moved into, or destroyed; moving transfers the obligation to the target.", "quantifier": "every history of assignments and moves among any number of Objects", "why_tests_cant": "arbitrary histories", "anchors": ["include/FlameIDE/Templates/Object.hpp: Object::operator=, ~Object, destroy"]}
{"id": "C35", "title": "Moved type-erased Object still refers to its value", "statement": "After moving an Object that holds a value, get<T>() of the target gives access to that value.", "quantifier": "every storage address, every alignment and size of T that the Object accepts", "why_tests_cant": "depends on the run-time address of the storage", "anchors": ["include/FlameIDE/Templates/Object.hpp: Object::operator=(Object &&), get", "include/FlameIDE/Common/Utils.hpp: alignedPointer"]}
{"id": "C36", "title": "Range comparison decides equality", "statement": "isEqual(range1, range2) returns true exactly when both ranges have the same length and equal elements; isEqual on two objects decides equality of their bytes.", "quantifier": "all ranges of all lengths, all objects", "why_tests_cant": "all lengths", "anchors": ["include/FlameIDE/Common/Utils.hpp: isEqual"]}
{"id": "C37", "title": "Byte and element copying", "statement": "copy(dest, source, n) makes the first n bytes (elements) of the destination equal to those of the source, returns what it copied, and changes nothing else.", "quantifier": "all sizes and contents", "why_tests_cant": "all sizes", "anchors": ["include/FlameIDE/Common/Utils.hpp: copy", "include/FlameIDE/Templates/SimpleAlgorithms.hpp: copy, countIterations"]}
{"id": "C38", "title": "alignedPointer gives the first aligned address", "statement": "alignedPointer<T>(p) is a multiple of the alignment of T, is not before p, and is the smallest such address.", "quantifier": "every address, every alignment", "why_tests_cant": "2^64 addresses", "anchors": ["include/FlameIDE/Common/Utils.hpp: alignedPointer"]}
{"id": "C39", "title": "Ordering of reverse iterators follows traversal order", "statement": "For reverse iterators over one array, a < b holds exactly when a is met before b in the reverse traversal; <=, > and >= are consistent with < and ==.", "quantifier": "all pairs of positions", "why_tests_cant": "all pairs", "anchors": ["include/FlameIDE/Templates/Iterator/Operators.hpp: reverse comparison macros"]}
{"id": "C40", "title": "Circular iterator arithmetic is arithmetic modulo the buffer size", "statement": "Advancing a circular iterator n times by ++, or once by += n, moves it to position (i + n) mod size; -- and -= are the inverse; operator[] n and *(it + n) denote the same element.", "quantifier": "every buffer size, every position, every n", "why_tests_cant": "wrap-around boundaries for all sizes", "anchors": ["include/FlameIDE/Templates/Iterator/Operators.hpp: circular macros", "include/FlameIDE/Templates/Iterator/CircularIterator.hpp"]}
{"id": "C41", "title": "AsIntegralType compares like the wrapped integer", "statement": "For a type wrapped as an integer, ==, !=, <, <=, > and >= agree with the comparison of the underlying values.", "quantifier": "all pairs of values and all operand types", "why_tests_cant": "all pairs of integers", "anchors": ["include/FlameIDE/Templates/AsIntegralType.hpp"]}
{"id": "C42", "title": "Bit constants denote the bit in their name", "statement": "The constant BITw_n equals 2^n for every width w and every n < w; BYTE_0F and BYTE_FF are 15 and 255; MinimalType<n> is the smallest unsigned type with at least n bits.", "quantifier": "every width and every bit number", "why_tests_cant": "every constant must be checked, and each value proved rather than sampled", "anchors": ["include/FlameIDE/Templates/Bits.hpp"]}
{"id": "C43", "title": "IPv4 text round trip", "statement": "Formatting an address with octets in 0..255 and parsing the result gives the same address and port.", "quantifier": "all 2^32 addresses, all ports", "why_tests_cant": "2^32 addresses; the formatting error affects only octets of a certain shape", "anchors": ["src/Os/Network/Ipv4.cpp: convertIp, operator Address, set"]}
{"id": "C44", "title": "IPv4 parser accepts only dotted quads", "statement": "set(text, port) returns true only if text consists of four decimal numbers separated by dots, in which case the four numbers are stored; otherwise it returns false, the object becomes invalid, and no memory outside the text is read.", "quantifier": "every NUL terminated text", "why_tests_cant": "all strings", "anchors": ["src/Os/Network/Ipv4.cpp: convertIp, set"]}
{"id": "C45", "title": "Validity of an Ipv4", "statement": "operator bool is true exactly when all four numbers are in 0..255; a default constructed or reset address is invalid; localhost(port) is 127.0.0.1 with that port; every address formatted has at most 15 characters and fits the Address buffer.", "quantifier": "all values of the four numbers", "why_tests_cant": "all 2^64 number combinations", "anchors": ["src/Os/Network/Ipv4.cpp", "include/FlameIDE/Os/Network/Ipv4.hpp"]}
{"id": "C46", "title": "Socket event queue is a linearizable bounded FIFO", "statement": "For every interleaving of push and pop calls by any number of threads, after init, the results are those of a sequential bounded FIFO queue: each pushed value is popped at most once and in order, push fails only when the queue is full, pop fails only when it is empty.", "quantifier": "every number of threads, every schedule, every history, every capacity", "why_tests_cant": "schedules cannot be enumerated by tests", "anchors": ["src/Os/Async/Network/QueuedArray.hpp: QueuedArray::push, pop, init"]}
{"id": "C47", "title": "Scoped locks give mutual exclusion and are always released", "statement": "While one thread is inside a scope guarded by a Locker on a Spin or Mutex no other thread is inside a scope guarded by the same lock, and when every scope has been left the lock is free.", "quantifier": "every number of threads, every schedule", "why_tests_cant": "schedules cannot be enumerated", "anchors": ["src/Os/Threads/Utils.cpp: Locker", "src/Os/Threads/Spin.cpp", "src/Os/Threads/Mutex.cpp"]}
{"id": "C48", "title": "UniqueLocker releases exactly what it acquired", "statement": "Over any history of lock, tryLock, unlock, moves and destruction of UniqueLockers on a lock, the number of releases equals the number of acquisitions; a moved-from UniqueLocker does nothing and its target is responsible for the release.", "quantifier": "every history", "why_tests_cant": "arbitrary histories including moves", "anchors": ["src/Os/Threads/Utils.cpp: UniqueLocker"]}
{"id": "C49", "title": "A socket is closed exactly once", "statement": "Over any history of creation, moves and destruction of network objects every descriptor is closed exactly once, by its last owner, and no foreign descriptor is ever closed.", "quantifier": "every history", "why_tests_cant": "arbitrary move histories; closing descriptor 0 is not visible to tests", "anchors": ["src/Os/Network/NetworkBase.cpp: NetworkBase"]}
{"id": "C50", "title": "Event delivery does not block", "statement": "A socket event that arrives while the same thread is using the queue is delivered without blocking.", "quantifier": "every point at which the signal may arrive", "why_tests_cant": "signal arrival points cannot be enumerated by tests", "anchors": ["src/Os/Posix/Async/Network/EventCatcher.cpp: signalHandler", "src/Os/Async/Network/QueuedArray.hpp"]}
{"id": "C51", "title": "Registrar::clear empties all queues", "statement": "clear() terminates and afterwards every pop reports that the queue is empty.", "quantifier": "every content of the five queues", "why_tests_cant": "all contents, including stored values equal to the invalid marker", "anchors": ["src/Os/Async/Network/Registrar.cpp: clear, pop*"]}
{"id": "C52", "title": "HybridVector behaves as a sequence across the switch of storage", "statement": "For every history of pushBack, popBack, insert, erase and clean the contents equal the mathematical sequence, whether it currently lives in the fixed or in the dynamic storage.", "quantifier": "every capacity of the fixed part, every history crossing the boundary in either direction", "why_tests_cant": "boundary crossings depend on the history", "anchors": ["include/FlameIDE/Templates/HybridVector.hpp"]}
{"id": "C53", "title": "RamStream is a lossless FIFO byte stream", "statement": "For every history of writes and reads, the bytes read so far are a prefix of the bytes written so far, read returns min(requested, available) bytes, and write accepts all bytes.", "quantifier": "every history of writes and reads of any sizes", "why_tests_cant": "arbitrary histories", "anchors": ["src/Streams/RamStream.cpp"]}
{"id": "C54", "title": "Splitting a circular byte range", "statement": "The two contiguous ranges computed for a circular byte range, concatenated, contain exactly the bytes of the circular range in order.", "quantifier": "every buffer size, every begin and end position", "why_tests_cant": "all positions", "anchors": ["src/Streams/StreamUtils.cpp: getContiniousRanges"]}
{"id": "C55", "title": "CircularArray element lifetimes", "statement": "Every element constructed in a CircularArray is destroyed exactly once, by popFront, clean or the destructor, also in containers made by copying or moving; no cell without an element is read or destroyed.", "quantifier": "every capacity, every history of operations", "why_tests_cant": "lifetime errors are silent for trivially destructible test element types", "anchors": ["include/FlameIDE/Templates/CircularArray.hpp: popFront, clean, CircularArray(const CircularArray &), ~CircularArray"]}
{"id": "C56", "title": "Vector constructed with a size has that size", "statement": "Vector(n) holds exactly n default-constructed elements.", "quantifier": "every n", "why_tests_cant": "all sizes; the defect is invisible for n = 0 and n = 1", "anchors": ["include/FlameIDE/Templates/Vector.hpp: Vector(SizeType)"]}
{"id": "C57", "title": "Vector element lifetimes", "statement": "Every element constructed in a Vector is destroyed exactly once - by popBack, erase, clean, reallocation or the destructor - no raw memory is assigned or destroyed, and no living element is overwritten by construction or freed undestroyed.", "quantifier": "every history of operations, with and without successful realloc", "why_tests_cant": "lifetime errors are silent for trivially destructible test element types", "anchors": ["include/FlameIDE/Templates/Vector.hpp: insert, emplace, erase, reserve, clean, ~Vector"]}
{"id": "C58", "title": "Copied and moved Lists are independent", "statement": "A List copied from another has the same sequence; a List moved from another takes its sequence and leaves the source usable as an empty list; afterwards the two lists never affect each other, in whatever order they are used. This holds for empty sources too.", "quantifier": "all source histories and all interleavings of later calls on the two lists", "why_tests_cant": "aliasing of nodes shows only for particular interleavings", "anchors": ["include/FlameIDE/Templates/List.hpp: List(const List &), List(List &&)"]}
{"id": "C59", "title": "String concatenation", "statement": "a + b has the characters of a followed by the characters of b, for two Strings, a String and a C string, and a C string and a String; the operands are unchanged.", "quantifier": "all strings and C strings, with any history", "why_tests_cant": "all lengths and contents", "anchors": ["include/FlameIDE/Templates/String.hpp: operator+, operator+="]}
{"id": "C60", "title": "Storing or copying a named object does not change it", "statement": "Constructing a Variant from another named Variant, and storing a named object with set, leave the source with the value it had; only explicitly moved-from sources change.", "quantifier": "every variant state, every stored value, const and non-const sources", "why_tests_cant": "which constructor is chosen depends on constness of the argument; tests with trivially movable values do not see the difference", "anchors": ["include/FlameIDE/Templates/Variant.hpp: Variant(T &&), set(T &&)"]}
{"id": "C61", "title": "Variants with repeated alternatives are rejected", "statement": "The uniqueness check on a parameter pack is true exactly when no type occurs twice in the pack.", "quantifier": "every pack of at least two types", "why_tests_cant": "all packs; the check is evaluated at compile time, so a test can only contain packs it accepts", "anchors": ["include/FlameIDE/Common/Traits/Functional.hpp: IsUniqueParameterPack", "include/FlameIDE/Templates/Variant.hpp: static_assert"]}
{"id": "C62", "title": "Assigning a value to a templates::Expected stores it", "statement": "After a result or an error, const or temporary, is assigned to a templates::Expected, the handler of that kind is called with that value and the other handler is not.", "quantifier": "every history of operations on any number of templates::Expected objects, every assigned value, each of the four assignment operators", "why_tests_cant": "the four overloads differ by constness only, and the lost value shows only when handlers are called later", "anchors": ["include/FlameIDE/Templates/Expected.hpp: operator=(const Result &), operator=(Result &&), operator=(const Error &), operator=(Error &&)"]}
{"id": "C63", "title": "Copying a templates::Expected leaves the source unchanged", "statement": "Copy construction of a templates::Expected gives a copy with the same content and leaves the const source as it was.", "quantifier": "every content of the source, every history before the copy", "why_tests_cant": "the source changes only for payloads whose move changes the value, and through a const reference", "anchors": ["include/FlameIDE/Templates/Expected.hpp: Expected(const Expected &), variant", "include/FlameIDE/Templates/Variant.hpp: Variant(T &&)"]}
{"id": "C64", "title": "length of a terminated array", "statement": "length(array) is the number of elements before the first null element, and nothing after that element is read.", "quantifier": "every array with a null element at any position", "why_tests_cant": "all lengths and contents", "anchors": ["include/FlameIDE/Common/Utils.hpp: length"]}
{"id": "C65", "title": "foreach visits each element once, in order", "statement": "foreach over a range calls the function exactly once for each element, in order, and changes nothing outside the range.", "quantifier": "every range, every function and its state", "why_tests_cant": "all lengths and all functions", "anchors": ["include/FlameIDE/Templates/SimpleAlgorithms.hpp: foreach, foreachChangable"]}
{"id": "C66", "title": "AsIntegralType computes like the wrapped integer", "statement": "Arithmetic, shifts and conversions of wrapped integers give the exact result whenever it fits the type; unsigned results wrap around modulo 2^bits and are never undefined.", "quantifier": "all pairs of values of every integer type", "why_tests_cant": "all pairs of integers", "anchors": ["include/FlameIDE/Templates/AsIntegralType.hpp: operator+, operator-, operator*, operator/, operator<<, operator>>"]}
{"id": "C67", "title": "Registering sockets from several threads creates each queue once", "statement": "When several threads register sockets at the same time, each queue is created once and no event pushed after a registration returned is lost.", "quantifier": "every number of threads, every schedule, every queue capacity, every pushed value", "why_tests_cant": "the check and the creation are separate steps; losing an event needs one particular schedule", "anchors": ["src/Os/Async/Network/Registrar.cpp: add", "src/Os/Async/Network/QueuedArray.hpp: operator bool, init"]}
{"id": "C68", "title": "maximum and minimum", "statement": "maximum(a, b) and minimum(a, b) return one of their arguments, and neither argument is greater (smaller) than the result, for every strict ordering given by operator>.", "quantifier": "all pairs of values of every type with an ordering", "why_tests_cant": "all pairs", "anchors": ["include/FlameIDE/Common/Utils.hpp: maximum, minimum"]}
{"id": "C69", "title": "Semaphore-guarded scopes", "statement": "At any moment at most n scopes guarded by a Semaphore created with the value n are open in all threads together, and after all have been left the semaphore has the value n again.", "quantifier": "every n, any number of threads, every schedule, with and without signals arriving during the wait", "why_tests_cant": "schedules and signal arrivals cannot be enumerated by tests", "anchors": ["src/Os/Threads/Utils.cpp: Locker(Semaphore &)", "src/Os/Threads/Semaphore.cpp: wait"]}
{"id": "C70", "title": "Locking and unlocking a shared lock is free of data races", "statement": "Threads that use the same Spin or Mutex through Locker never access the same memory outside of the lock at the same time.", "quantifier": "any number of threads, every schedule", "why_tests_cant": "data races are schedule dependent and silent", "anchors": ["src/Os/Threads/Spin.cpp: lock, unlock", "src/Os/Threads/Mutex.cpp: lock, unlock"]}
{"id": "C71", "title": "Scopes opened in a fixed order do not deadlock", "statement": "If every thread opens its Locker scopes in a fixed order of the locks, then whenever a thread is blocked some thread that holds a lock is not blocked.", "quantifier": "any number of threads and locks, every schedule", "why_tests_cant": "deadlocks depend on the schedule", "anchors": ["src/Os/Threads/Utils.cpp: Locker"]}
{"id": "C72", "title": "A network object tells whether it has a socket", "statement": "A network object converts to true, and reports a non-negative status, after construction exactly when the system calls that create its socket succeeded.", "quantifier": "all four classes, every combination of results of the system calls", "why_tests_cant": "failing system calls are not provoked by tests", "anchors": ["src/Os/Network/NetworkBase.cpp: operator bool, NetworkBase(Socket)", "src/Os/Network/TcpServer.cpp: TcpServer", "src/Os/Posix/Network/SocketFunctions.cpp: createUdpServer, createTcpServer, createUdpClient, createTcpClient"]}
{"id": "C73", "title": "A client is addressed to the address it is given", "statement": "The socket of a UdpClient or TcpClient created with an Ipv4 address a.b.c.d and a port in 0..65535 is addressed to exactly this address and port.", "quantifier": "all 2^32 addresses, all ports", "why_tests_cant": "2^32 addresses", "anchors": ["src/Os/Posix/Network/SocketFunctions.cpp: ipAddressClient, createUdpClient, createTcpClient"]}
{"id": "C74", "title": "The address read back from a socket is its address", "statement": "getIpv4 of a socket returns the address and port of the socket, and TcpClient::reconnect connects to the address it was connected to before.", "quantifier": "all 2^32 addresses, all ports, any content of unwritten memory", "why_tests_cant": "2^32 addresses; depends on the content of unwritten memory", "anchors": ["src/Os/Posix/Network/SocketFunctions.cpp: getIpv4", "src/Os/Network/TcpClient.cpp: reconnect"]}
{"id": "C75", "title": "Waiting for bytes ends when they are there", "statement": "waitBytes(n) returns when n bytes or more can be received, or when an error occurs.", "quantifier": "every n, every sequence of arrivals", "why_tests_cant": "the arrival pattern depends on the network", "anchors": ["src/Os/Posix/Network/TcpSocketFunctions.cpp: waitBytes"]}
{"id": "C76", "title": "Replies of a UDP server go to the client", "statement": "The object returned by UdpServer::wait announces the size of the next datagram, receive delivers that datagram, and send sends to the client it came from through the socket of the server.", "quantifier": "every queue of datagrams, every buffer size, every state of the server object at the time of the reply", "why_tests_cant": "arbitrary interleavings of moves of the server with replies", "anchors": ["src/Os/Network/UdpServer.cpp: wait, WithClient::receive, WithClient::send", "src/Os/Posix/Network/UdpSocketFunctions.cpp: waitServer, receiveServer, send", "include/FlameIDE/Os/Types.hpp: OsSocket::operator="]}
{"id": "C77", "title": "Reading a range from a descriptor", "statement": "A read through a file stream, pipe or named pipe that reports count >= 0 has taken exactly count bytes from the descriptor and placed them, in order, in the first places of the given range, changing no other byte of memory; a read that reports a negative number has taken and changed nothing.", "quantifier": "every linear or circular range of every memory, every content of the file, every sequence of short, complete and failing system calls", "why_tests_cant": "Short reads and failures of the second of two system calls depend on timing and kernel state that a unit test does not control; tests use ranges that fit one call.", "anchors": ["src/Streams/Posix/FileStreamReader.cpp:FileStreamReader::read", "src/Streams/StreamUtils.cpp:getContiniousRanges", "src/Streams/Posix/PipeStream.cpp:PipeStream::read"]}
{"id": "C78", "title": "Writing a range to a descriptor", "statement": "A write through a file stream, pipe or named pipe that reports count >= 0 has written exactly the first count bytes of the given range; a write that reports a negative number has written nothing.", "quantifier": "every linear or circular range of every memory, every sequence of short, complete and failing system calls", "why_tests_cant": "Short writes occur only under kernel conditions tests do not produce.", "anchors": ["src/Streams/Posix/FileStreamWriter.cpp:FileStreamWriter::write", "src/Streams/StreamUtils.cpp:getContiniousRanges", "src/Streams/Posix/PipeStream.cpp:PipeStream::write"]}
{"id": "C79", "title": "The status of a pipe records failures", "statement": "After a read or write on a PipeStream whose system call failed, getStatus() reports a failure; after a successful one it is unchanged.", "quantifier": "every range, every content, every failure", "why_tests_cant": "System call failures on a pipe cannot be provoked at every point by a test.", "anchors": ["src/Streams/Posix/PipeStream.cpp:PipeStream::read", "src/Streams/Posix/PipeStream.cpp:PipeStream::write"]}
{"id": "C80", "title": "A file stream closes exactly the descriptors it owns", "statement": "A descriptor handed to a FileStreamReader or FileStreamWriter as owner is closed exactly once: when its current owner is destroyed or given another descriptor; a descriptor the stream does not own, or has given back, is never closed by it.", "quantifier": "every history of constructions, moves, assignments, setFileDescriptor, getFileDescriptor and destructions on any number of streams, interleaved with other code opening and closing descriptors", "why_tests_cant": "Leaks and double closes depend on the whole history and on reuse of descriptor numbers.", "anchors": ["src/Streams/Posix/FileStreamReader.cpp:FileStreamReader::operator=", "src/Streams/Posix/FileStreamReader.cpp:FileStreamReader::setFileDescriptor", "src/Streams/Posix/FileStreamWriter.cpp:FileStreamWriter::getFileDescriptor"]}
{"id": "C81", "title": "A named pipe writer deletes exactly the files it was asked to delete", "statement": "When a NamedPipeWriter that was asked to delete its pipe is destroyed, the file of the pipe it has open is removed; a writer asked not to delete it removes nothing.", "quantifier": "every history of constructions, moves, opens and destructions; every name", "why_tests_cant": "The effect depends on which name the object carries after any sequence of moves and opens.", "anchors": ["src/Streams/Posix/NamedPipeWriter.cpp:NamedPipeWriter::~NamedPipeWriter", "src/Streams/Posix/NamedPipeWriter.cpp:NamedPipeWriter::open", "src/Streams/Posix/NamedPipeWriter.cpp:NamedPipeWriter::setName"]}
{"id": "C82", "title": "A named pipe stream releases both ends", "statement": "Destroying a NamedPipeStream closes the descriptors of its reader and its writer and has no undefined behaviour.", "quantifier": "every state of the stream and of the process", "why_tests_cant": "A leaked descriptor or the read of an indeterminate value has no visible effect in a test.", "anchors": ["src/Streams/Posix/NamedPipeStream.cpp:NamedPipeStream::deinit", "src/Streams/Posix/NamedPipeStream.cpp:NamedPipeStream::~NamedPipeStream"]}
{"id": "C83", "title": "A thread-safe counter loses no update", "statement": "threads::Counter<T>: for any number of threads that increment, decrement and read the same counter at the same time, every call behaves as if it happened alone at one moment between its beginning and its end: the value is the initial value plus the increments minus the decrements, modulo the range of T.", "quantifier": "all numbers of threads, all lists of calls of each thread, all interleavings, all initial values and type widths", "why_tests_cant": "the interleavings of the steps of concurrent calls cannot be enumerated by running them", "anchors": ["include/FlameIDE/Os/Threads/Counter.hpp:Counter"]}
{"id": "C84", "title": "A wait on a condition variable returns only after a notification", "statement": "ConditionVariable::wait() returns only after a notify() that no other wait() has used.", "quantifier": "all histories and interleavings of wait, tryWait and notify by any threads", "why_tests_cant": "depends on the schedule and on the whole history of the object", "anchors": ["include/FlameIDE/Os/Threads/ConditionVariable.hpp:ConditionVariable", "src/Os/Threads/ConditionVarable.cpp"]}
{"id": "C85", "title": "notify wakes a waiting thread and returns", "statement": "If threads wait on a condition variable, notify() makes exactly one of them return from wait(), and notify() itself returns.", "quantifier": "all fair schedules, all numbers of waiting threads, all kinds of locks", "why_tests_cant": "liveness over all fair schedules", "anchors": ["src/Os/Threads/ConditionVarable.cpp:ConditionVariable::notify", "src/Os/Threads/ConditionVarable.cpp:ConditionVariable::wait"]}
{"id": "C86", "title": "tryWait tells whether there is a notification", "statement": "ConditionVariable::tryWait() never blocks; it returns true exactly if there is a notification, which it uses up, and has no effect otherwise.", "quantifier": "all states of the condition variable and all calling threads", "why_tests_cant": "depends on the history and on the kind of lock", "anchors": ["src/Os/Threads/ConditionVarable.cpp:ConditionVariable::tryWait"]}
{"id": "C87", "title": "A condition variable can be shared without data races", "statement": "Threads that only call wait, tryWait and notify of one ConditionVariable do not race on its memory.", "quantifier": "all interleavings of all calls", "why_tests_cant": "a data race shows in no single run", "anchors": ["src/Os/Threads/ConditionVarable.cpp", "include/FlameIDE/Os/Threads/ConditionVariable.hpp"]}
{"id": "C88", "title": "A spin lock excludes on Windows", "statement": "With the Windows implementation of Spin, at most one thread at a time is between a lock() or successful tryLock() and the unlock() that follows; lock() of a held lock returns only after unlock().", "quantifier": "all numbers of threads and all interleavings of their atomic operations", "why_tests_cant": "depends on the interleaving; the tests run on one system and one schedule", "anchors": ["src/Os/Windows/Threads/SpinFunctions.cpp:lock", "src/Os/Windows/Threads/SpinFunctions.cpp:tryLock", "src/Os/Windows/Threads/SpinFunctions.cpp:unlock"]}
{"id": "C89", "title": "The value of a semaphore is the number of waits that would not block, on Windows", "statement": "With the Windows implementation of Semaphore, getValue() gives the number of calls of wait() that would return at once, and does not change the semaphore.", "quantifier": "all initial values, numbers of threads and interleavings of wait, tryWait, post and getValue", "why_tests_cant": "depends on the interleaving of the count kept by the system and the copy kept by the library", "anchors": ["src/Os/Windows/Threads/SemaphoreFunctions.cpp:wait", "src/Os/Windows/Threads/SemaphoreFunctions.cpp:post", "src/Os/Windows/Threads/SemaphoreFunctions.cpp:value"]}
{"id": "C90", "title": "A semaphore hands out the tokens it has, on Windows", "statement": "With the Windows implementation, a semaphore made with value v lets v waits pass, each post() lets one more pass and always succeeds, and a wait() on a semaphore with value 0 waits for a post().", "quantifier": "all initial values, numbers of threads and interleavings", "why_tests_cant": "the limits of the system object show only for particular values and histories", "anchors": ["src/Os/Windows/Threads/SemaphoreFunctions.cpp:initialize", "src/Os/Windows/Threads/SemaphoreFunctions.cpp:post", "src/Os/Windows/Threads/SemaphoreFunctions.cpp:wait"]}
{"id": "C91", "title": "Deleting a thread object waits for its thread and releases it once", "statement": "Every thread started by run() of a ThreadBase object is joined exactly once, at the latest when the object responsible for it is deleted, and deleting the object has no undefined behaviour whether or not join() was called, run() failed or the body still works.", "quantifier": "every history of constructions, run, join, assignment and deletions of any number of thread objects, interleaved in any way with the bodies", "why_tests_cant": "joining a thread twice, leaking one or deleting an object under a running body depends on the schedule and is silent in a test", "anchors": ["src/Os/Threads/Thread.cpp:ThreadBase::~ThreadBase", "src/Os/Threads/Thread.cpp:ThreadBase::run", "src/Os/Posix/Threads/ThreadFunctions.cpp:join"]}
{"id": "C92", "title": "Moving a thread object hands its thread over", "statement": "After move construction or assignment the target is responsible for the thread of the source, the source for none, and a thread the target had before is not lost.", "quantifier": "every state of both objects", "why_tests_cant": "reading an uninitialised member and losing a thread have no visible effect in a test", "anchors": ["src/Os/Threads/Thread.cpp:ThreadBase::operator="]}
{"id": "C93", "title": "detach lets a thread go on by itself", "statement": "After detach() the thread is released, goes on to its end, and the object can be used or deleted like a new one.", "quantifier": "every system that follows POSIX, every state of the body", "why_tests_cant": "what is undefined by POSIX works on the system of the tests", "anchors": ["src/Os/Threads/Thread.cpp:ThreadBase::detach", "src/Os/Posix/Threads/ThreadFunctions.cpp:detach"]}
{"id": "C94", "title": "getStatus tells whether run() started a thread", "statement": "After run(), getStatus() is success exactly if a thread was started.", "quantifier": "every answer of the system and every value of errno", "why_tests_cant": "failures of the system cannot be produced in a unit test", "anchors": ["src/Os/Threads/Thread.cpp:ThreadBase::run", "src/Os/Posix/Threads/ThreadFunctions.cpp:create"]}
{"id": "C95", "title": "isWorking tells whether the body runs", "statement": "isWorking() is true exactly while the body of the thread object has not ended, and can be asked at any time.", "quantifier": "every state of the object and the body", "why_tests_cant": "depends on the moment of the call and on the system", "anchors": ["src/Os/Threads/Thread.cpp:ThreadBase::isWorking", "src/Os/Posix/Threads/ThreadFunctions.cpp:isWorking"]}
{"id": "C96", "title": "Lock objects are destroyed exactly once", "statement": "Each Mutex, Spin and Semaphore initialises one object of the system, which is destroyed exactly when the C++ object is; a construction that fails leaves an object that can be destroyed.", "quantifier": "every history of constructions, uses and destructions of any number of locks, every answer of the system", "why_tests_cant": "leaks and destroying what was not initialised are silent", "anchors": ["src/Os/Threads/Mutex.cpp:Mutex::~Mutex", "src/Os/Threads/Semaphore.cpp:Semaphore::~Semaphore", "src/Os/Threads/Spin.cpp:Spin::~Spin"]}
{"id": "C97", "title": "Locks can be moved", "statement": "After move construction or assignment of a Mutex, Spin or Semaphore the target can be used and destroyed, what it had before is destroyed, and the source can be destroyed.", "quantifier": "every kind of lock, every state of both objects, every system that follows POSIX", "why_tests_cant": "what is undefined by POSIX may work on the system of the tests", "anchors": ["src/Os/Threads/Mutex.cpp:Mutex::operator=", "src/Os/Threads/Semaphore.cpp:Semaphore::operator=", "src/Os/Threads/Spin.cpp:Spin::operator="]}
{"id": "C98", "title": "tryLock and tryWait tell whether the lock was taken", "statement": "tryLock() of Mutex and Spin and tryWait() of Semaphore return true exactly if the system took the lock; a busy lock leaves the status alone, any other error becomes the status.", "quantifier": "every answer of the system", "why_tests_cant": "errors of the system cannot be produced in a unit test", "anchors": ["src/Os/Posix/Threads/SemaphoreFunctions.cpp:tryWait", "src/Os/Posix/Threads/MutexFunctions.cpp:tryLock", "src/Os/Threads/Semaphore.cpp:Semaphore::tryWait"]}
{"id": "C99", "title": "Assigning an integer to a wide integer keeps its value", "statement": "After a wide integer of BITS bits is assigned an integer, its bytes are the digits of the integer modulo 2^BITS, most significant first.", "quantifier": "every number of bits, every integer type and value, both byte orders of the machine, every previous content", "why_tests_cant": "a test tries a few values of a few sizes", "anchors": ["include/FlameIDE/Templates/WideInt.hpp:WideInt::operator=", "include/FlameIDE/Templates/WideInt.hpp:wideint_utils::PrimitiveTypeOperationsImpl::operatorInit"]}
{"id": "C100", "title": "Constructing a wide integer is like assigning to it", "statement": "A wide integer constructed from an integer is equal to a wide integer the same integer was assigned to.", "quantifier": "every number of bits, every integer type and value, every content of the memory the object is created in", "why_tests_cant": "fresh memory is usually zero in tests", "anchors": ["include/FlameIDE/Templates/WideInt.hpp:WideInt::WideInt"]}
{"id": "C101", "title": "A wide integer converts to the integer types", "statement": "Converting a wide integer to an integer type gives the value of that type congruent to the number; what was assigned from a type not wider than the wide integer comes back unchanged.", "quantifier": "every number of bits, every content, every integer type, both byte orders of the machine", "why_tests_cant": "a test tries a few values of a few sizes", "anchors": ["include/FlameIDE/Templates/WideInt.hpp:WideInt::operator T", "include/FlameIDE/Templates/WideInt.hpp:wideint_utils::PrimitiveTypeOperationsImpl::operatorConvert"]}
{"id": "C102", "title": "The complement of a wide integer", "statement": "~x is the bitwise complement of x, ~~x is x, and evaluating ~x does not change x.", "quantifier": "every number of bits and every content", "why_tests_cant": "a test tries a few values", "anchors": ["include/FlameIDE/Templates/WideInt.hpp:WideInt::operator~"]}
{"id": "C103", "title": "Wide integers compute modulo 2^BITS", "statement": "The shifts, &, |, +, -, *, /, their compound assignments and ++ and -- give the mathematical result modulo 2^BITS.", "quantifier": "every number of bits, every content and every operand", "why_tests_cant": "a test tries a few values", "anchors": ["include/FlameIDE/Templates/WideInt.hpp:WideInt::operator+", "include/FlameIDE/Templates/WideInt.hpp:WideInt::operator<<", "include/FlameIDE/Templates/WideInt.hpp:WideInt::operator++"]}
{"id": "C104", "title": "The file that a Library loads", "statement": "The loader is given the path directory + slash + prefix + name + suffix (without the first two if no directory is given), terminated.", "quantifier": "every name, every directory or none, of any length, and both ways the path is assembled", "why_tests_cant": "the lengths at which the second way starts and the bounds of both buffers are not tried by tests", "anchors": ["src/Os/Library.cpp:getHandle"]}
{"id": "C105", "title": "A library stays loaded exactly as long as an object has it", "statement": "A library is open as many times as Library objects have it; when no object is left every library is closed; nothing is closed twice.", "quantifier": "every history of construction, moves, assignment and destruction of any number of objects", "why_tests_cant": "needs all histories; the open count of the loader is not visible to tests", "anchors": ["src/Os/Library.cpp:Library::~Library", "src/Os/Library.cpp:Library::operator=", "src/Os/Library.cpp:Library::Library", "src/Os/Posix/LibraryFunctions.cpp:close"]}
{"id": "C106", "title": "The memory of a Library object is released with it", "statement": "When all Library objects are destroyed no memory they allocated is left.", "quantifier": "every history of any number of objects", "why_tests_cant": "a leak has no visible effect in a test", "anchors": ["src/Os/Library.cpp:Library::~Library", "src/Os/Library.cpp:Library::Library"]}
{"id": "C107", "title": "A Library object that was moved from can be used", "statement": "A moved-from Library can be destroyed, asked (operator bool), searched, moved from and assigned to.", "quantifier": "every reachable state", "why_tests_cant": "undefined behaviour may go unnoticed in a test", "anchors": ["src/Os/Library.cpp:Library::Library", "src/Os/Library.cpp:Library::operator bool", "src/Os/Library.cpp:Library::~Library"]}
{"id": "C108", "title": "find gives the symbols of the library", "statement": "find(name) gives the symbol of the library the object has, and null if it has none or the library has no such symbol; operator bool tells whether the object has a library.", "quantifier": "every reachable state, every loader and every name", "why_tests_cant": "depends on the loader of the system and on the other symbols of the program", "anchors": ["src/Os/Library.cpp:Library::internalFind", "src/Os/Posix/LibraryFunctions.cpp:findSymbol", "include/FlameIDE/Os/Library.hpp:Library::find"]}
{"id": "C109", "title": "The PKCS#11 wrapper is safe whatever the module answers", "statement": "No sequence of calls to Pkcs11Library and Slot, in any order, and no destruction after it, calls through a null function pointer or writes outside a buffer, as long as memory is available and the module keeps to the sizes it announced.", "quantifier": "every history of calls, every answer of the module to every call", "why_tests_cant": "the module is foreign code: its answers can be anything", "anchors": ["src/Crypto/Pkcs11/Pkcs11.cpp: Pkcs11Library", "src/Crypto/Pkcs11/Slot.cpp: Slot"]}
{"id": "C110", "title": "The PKCS#11 wrapper reports errors", "statement": "When the library is not initialised or the module answers with an error, the value the wrapper returns (status code or Expected) holds that error; when the module succeeds it holds the module's result.", "quantifier": "every history of calls, every answer of the module", "why_tests_cant": "each error path needs a module that fails at that very call", "anchors": ["src/Crypto/Pkcs11/Pkcs11.cpp: getInfo, getFunctionList, getSlotIdCount, getSlotIdList, finalize", "include/FlameIDE/Crypto/Pkcs11/Pkcs11.hpp: createPkcs11Expected", "include/FlameIDE/Templates/Expected.hpp: operator=", "src/Crypto/Pkcs11/Slot.cpp: getSlotInfo, waitForSlotEvent"]}
{"id": "C111", "title": "C_Finalize balances C_Initialize", "statement": "When a Pkcs11Library is destroyed, the module has seen exactly one C_Finalize after each successful C_Initialize.", "quantifier": "every history of calls, every answer of the module", "why_tests_cant": "imbalance shows only inside the module, on error paths or at destruction", "anchors": ["src/Crypto/Pkcs11/Pkcs11.cpp: initialize, finalize, ~Pkcs11Library"]}
{"id": "C112", "title": "The module is called only while it is initialised", "statement": "Pkcs11Library and Slot call C_GetInfo, C_GetSlotList, C_GetSlotInfo, C_WaitForSlotEvent and C_Finalize only between a successful C_Initialize and the next successful C_Finalize.", "quantifier": "every history of calls, every answer of the module", "why_tests_cant": "depends on the order of calls by the user", "anchors": ["src/Crypto/Pkcs11/Pkcs11.cpp: Pkcs11Library", "src/Crypto/Pkcs11/Slot.cpp: Slot"]}
{"id": "C113", "title": "The slot list is the list of the module's slots", "statement": "getSlotIdCount gives the number of slots of the module and getSlotIdList their ids, for every set of slots.", "quantifier": "every list of slots, also when it changes between the two calls the wrapper makes", "why_tests_cant": "depends on the number of slots of the token in use", "anchors": ["src/Crypto/Pkcs11/Pkcs11.cpp: getSlotIdCount, getSlotIdList", "include/FlameIDE/Templates/Vector.hpp: reserve, resize"]}
{"id": "C114", "title": "The interface list can be read", "statement": "After a successful initialize of a module with interfaces, getInterfaceList and getInterface return pointers to the interfaces the module reported, valid as long as the library exists.", "quantifier": "every list of interfaces, every history of calls", "why_tests_cant": "a dangling pointer usually still reads as the old value", "anchors": ["src/Crypto/Pkcs11/Pkcs11.cpp: initializeInterfaceList, getInterfaceList, getInterface", "include/FlameIDE/Templates/Expected.hpp: done"]}
{"id": "C115", "title": "A Slot object stands for the slot it was created for", "statement": "getSlotId and every later query of a Slot refer to the id given at creation.", "quantifier": "every history of calls, every answer of the module", "why_tests_cant": "needs a module with several slots and an event in another one", "anchors": ["src/Crypto/Pkcs11/Slot.cpp: getSlotId, getSlotInfo, waitForSlotEvent"]}
{"id": "C116", "title": "Initialisation arguments keep their value", "statement": "An InitializeArgs object holds the callbacks, flags and reserved pointer it was given through any sequence of copies, moves and assignments, except that a moved-from object is unspecified; moving an object into itself changes nothing.", "quantifier": "every history of operations on any number of InitializeArgs objects", "why_tests_cant": "self moves come from aliases", "anchors": ["src/Crypto/Pkcs11/InitializeArgs.cpp: InitializeArgs"]}
{"id": "C117", "title": "Unlock releases the mutex of the software module", "statement": "After lock and unlock of a Mutex made of the application's callbacks the mutex is free again: the application's unlock function is called once for each unlock.", "quantifier": "every history of calls on any number of mutexes, every answer of the application's functions", "why_tests_cant": "needs real locks and a second lock of the same thread", "anchors": ["src/Crypto/SoftPkcs11/Mutex.cpp:Mutex::unlock", "src/Crypto/SoftPkcs11/Mutex.cpp:Mutex::lock"]}
{"id": "C118", "title": "Contexts of the application are destroyed exactly once", "statement": "Each context the application's create function returned is given to its destroy function exactly once, when no Mutex has it any more, and to no function afterwards.", "quantifier": "every history of constructions, moves, assignments and destructions of any number of mutexes", "why_tests_cant": "leaks and use after destruction are silent", "anchors": ["src/Crypto/SoftPkcs11/Mutex.cpp:Mutex::operator=", "src/Crypto/SoftPkcs11/Mutex.cpp:Mutex::destroy", "src/Crypto/SoftPkcs11/Mutex.cpp:Mutex::~Mutex"]}
{"id": "C119", "title": "A mutex with a missing callback reports it and is harmless", "statement": "A Mutex constructed with any of the four functions missing calls none of them, reports bad arguments, and can be destroyed; otherwise its status is what the application answered.", "quantifier": "every combination of missing functions, every state, every answer", "why_tests_cant": "undefined behaviour on the error path", "anchors": ["src/Crypto/SoftPkcs11/Mutex.cpp:Mutex::Mutex", "src/Crypto/SoftPkcs11/Mutex.cpp:Mutex::getLastStatus"]}
{"id": "C120", "title": "General purpose functions of the software module check their arguments", "statement": "C_Initialize, C_GetInfo, C_GetFunctionList and C_GetInterfaceList report null pointers, store what was asked for, and follow the convention for lists: the count is stored and an array that is too small is reported, not overrun.", "quantifier": "all pointers, null or not, all arrays of every size", "why_tests_cant": "sizes of the caller's arrays are unbounded and writing past the end may go unnoticed", "anchors": ["src/Crypto/SoftPkcs11/Functions/GeneralPurposeFunctions.cpp:getFunctionList", "src/Crypto/SoftPkcs11/Functions/GeneralPurposeFunctions.cpp:getIterfaceList"]}
{"id": "C121", "title": "Array and object construction through an allocator", "statement": "ArrayAllocator::construct(count, args) returns null or an array of count objects, each equal to the object the arguments describe, in memory of its own; ObjectAllocator::construct does so for one object.", "quantifier": "all element types and sizes, all histories of constructions and destructions, whatever requests for memory fail", "why_tests_cant": "a test constructs a few arrays of copied values; the argument may be a temporary, and the size may wrap", "anchors": ["include/FlameIDE/Templates/Allocator/ArrayAllocator.hpp: ArrayAllocator::construct", "include/FlameIDE/Templates/Allocator/ObjectAllocator.hpp: ObjectAllocator::construct"]}
{"id": "C122", "title": "Destruction through an allocator loses nothing", "statement": "destroy runs the destructor of each object exactly once before the memory is freed, frees the memory once and makes the pointer null; as many blocks are allocated as there are pointers that are not null.", "quantifier": "all histories of constructions and destructions", "why_tests_cant": "leaks and double destruction show only in some histories", "anchors": ["include/FlameIDE/Templates/Allocator/ArrayAllocator.hpp: ArrayAllocator::destroy", "include/FlameIDE/Templates/Allocator/ObjectAllocator.hpp: ObjectAllocator::destroy"]}
{"id": "C123", "title": "ObjectViewer::clean zeroes the object", "statement": "clean() sets every byte of the viewed object to zero and no other byte.", "quantifier": "all object sizes, memory contents and positions", "why_tests_cant": "a test sees the bytes it looks at, for the sizes it uses", "anchors": ["include/FlameIDE/Templates/ObjectViewer.hpp: ObjectViewer::clean"]}
{"id": "C124", "title": "AlignedObject holds an object", "statement": "An object constructed in an AlignedObject can be used through getAddress() and is destroyed when the AlignedObject ends; its address has the alignment that its type needs.", "quantifier": "all histories of AlignedObjects, all alignments, all addresses", "why_tests_cant": "a missing destructor call is invisible for trivial types; the address depends on the compiler", "anchors": ["include/FlameIDE/Templates/AlignObject.hpp: AlignedObject"]}
{"id": "C125", "title": "RaiiCaller calls each functor once", "statement": "makeRaiiCaller(first, second) calls first once, at once, and second exactly once, when the returned object ends.", "quantifier": "all histories of callers and copies, every choice of the compiler about elision", "why_tests_cant": "depends on an elision that C++14 does not promise", "anchors": ["include/FlameIDE/Templates/RaiiCaller.hpp: RaiiCaller, makeRaiiCaller"]}
{"id": "C126", "title": "A build step reports success", "statement": "A Substep constructed with arguments keeps them until it is called; after the call getResult() is the result and the conversion to bool tells whether it succeeded.", "quantifier": "all steps, arguments, results and errors", "why_tests_cant": "the order of construction of bases and members, and uninitialised values, do not show in a test", "anchors": ["include/FlameIDE/Templates/Builder.hpp: Substep"]}
{"id": "C127", "title": "Events go to the queue of their class", "statement": "Once a socket is registered with the Registrar, every event at it that is delivered is returned by the pop function for its class (UDP server, UDP client, TCP server, connected TCP server, TCP client), in order, and the notificator is called once for it.", "quantifier": "all histories of creating, registering, removing, events, deliveries and pops; all capacities; all process numbers", "why_tests_cant": "which queue is chosen depends on socket options at the time of the signal; full queues and failed calls need long histories", "anchors": ["src/Os/Posix/Async/Network/EventCatcher.cpp: signalHandler, handleTcp, handleUdp", "src/Os/Async/Network/Registrar.cpp: add, pop*", "src/Os/Async/Network/EventCatcherBase.cpp: notify"]}
{"id": "C128", "title": "Removing a socket undoes adding it", "statement": "After add and remove the socket has the flags, owner and signal it had before, other sockets are untouched, and an add that fails changes nothing.", "quantifier": "all sockets, all states, every failing system call", "why_tests_cant": "depends on the state before and on which of three system calls fails", "anchors": ["src/Os/Posix/Async/Network/EventCatcher.cpp: enable, disable, enableSignal, disableSignal"]}
{"id": "C129", "title": "No event is lost", "statement": "Every event at a registered socket is delivered sooner or later, and a popped descriptor is the socket at which the event happened.", "quantifier": "all histories: bursts, several sockets, closing and reuse of descriptors", "why_tests_cant": "signals coalesce only under certain timing", "anchors": ["src/Os/Posix/Async/Network/EventCatcher.cpp: signalHandler", "src/Os/Async/Network/Registrar.cpp"]}
{"id": "C130", "title": "alive tells whether a TCP connection is usable", "statement": "tcp::alive returns true exactly if bytes can be read or the connection still exists, and leaves the socket in the mode it was in.", "quantifier": "all states of a connection, all errors", "why_tests_cant": "breaking connections and failing fcntl are not reproducible in tests", "anchors": ["src/Os/Posix/Network/TcpSocketFunctions.cpp: alive", "src/Os/Posix/Network/SocketFunctions.cpp: enableNonblock, disableNonblock"]}
{"id": "C131", "title": "Registration succeeds only if events are handled", "statement": "If add returns success the signal handler is installed, so that an event never terminates the process; the destructor of EventCatcher restores the action that was there before.", "quantifier": "all failures in the constructor, all histories", "why_tests_cant": "sigemptyset, sigaddset and sigaction do not fail in tests", "anchors": ["src/Os/Posix/Async/Network/EventCatcher.cpp: EventCatcher, makeSigAction, ~EventCatcher"]}
{"id": "C132", "title": "Copies of PKCS#11 structures keep every field", "statement": "Copying a PKCS#11 structure of the wrapper, constructing it from the plain C structure, or assigning either to it, gives every field of the target the value of the source and changes no other object.", "quantifier": "every wrapper structure (86), every history of constructions, copies and assignments (also to itself), every values of the fields", "why_tests_cant": "A test compares the fields somebody thought of: one missing assignment among several hundred is invisible unless exactly that field of exactly that structure is compared.", "anchors": ["include/FlameIDE/Crypto/Pkcs11/Types/Structs/", "src/Crypto/Pkcs11/Types/Structs/", "FunctionList3", "NistSp800Hyphen108KdfParams"]}
{"id": "C133", "title": "Constructors from values fill every field", "statement": "The constructor of a PKCS#11 structure that takes the values of the fields stores each argument in the field it is declared for, and leaves no field without a value.", "quantifier": "every wrapper structure, every arguments", "why_tests_cant": "Arguments of the same type may be swapped or dropped; a test with equal values does not notice.", "anchors": ["src/Crypto/Pkcs11/Types/Structs/"]}
{"id": "C134", "title": "Default-constructed structures are empty", "statement": "A default-constructed PKCS#11 structure has a zero in every field, so that it may be passed to a module or copied.", "quantifier": "every wrapper structure", "why_tests_cant": "An indeterminate value is often zero by accident, so a test passes.", "anchors": ["src/Crypto/Pkcs11/Types/Structs/"]}
{"id": "C135", "title": "Structures have the layout of the platform", "statement": "On Posix the fields of the PKCS#11 structures are at the offsets at which a module compiled with the standard headers keeps them.", "quantifier": "every wrapper structure, every field; every number of functions in the list", "why_tests_cant": "Tests run against a module compiled from the same header, so both sides are wrong in the same way.", "anchors": ["include/FlameIDE/Crypto/Oasis/Oasis.hpp", "FunctionList", "Info"]}
{"id": "C136", "title": "The software module publishes each function under its own name", "statement": "Each entry of the function lists of the software PKCS#11 module is the function of the module with the name of the entry, however the compiler returns the lists from the functions that make them.", "quantifier": "both function lists, every entry, both choices of the compiler (results copied or not)", "why_tests_cant": "68 and 92 positional arguments, many with the same type; a test that calls a few of them cannot see the others, and runs with one choice of the compiler.", "anchors": ["src/Crypto/SoftPkcs11/Callbacks.cpp", "src/Crypto/SoftPkcs11/GlobalContext.hpp", "createFunctionList", "createFunctionList3"]}
{"id": "C137", "title": "Exported functions of the software module do the operation of their name", "statement": "Each function that the software PKCS#11 module exports and publishes, called with any arguments, runs the operation its name stands for, with the same arguments in the same order.", "quantifier": "all 92 functions of PKCS#11 3.0, all arguments", "why_tests_cant": "92 hand-written forwarding functions with up to 9 arguments of the same few types, over three layers of tables; as long as the operations do nothing no test can tell which one was reached.", "anchors": ["src/Crypto/SoftPkcs11/Interface/", "src/Crypto/SoftPkcs11/Callbacks.hpp", "src/Crypto/SoftPkcs11/Functions/"]}
{"id": "C138", "title": "The software module reports success only for what it did", "statement": "A function of the software PKCS#11 module that reports CKR_OK has done its operation: a verification succeeds only for a genuine signature, a login only with the right PIN, output parameters have been set; what is not supported is reported as such.", "quantifier": "all functions, all arguments, all contents of memory", "why_tests_cant": "A test of a success path passes when everything succeeds.", "anchors": ["src/Crypto/SoftPkcs11/Functions/", "src/Crypto/SoftPkcs11/Interface/"]}
{"id": "C139", "title": "initialize succeeds with every module that works", "statement": "initialize() of a PKCS#11 library that is not initialised succeeds exactly if the module exports a function list, gives its interfaces if it has any, and accepts C_Initialize and C_GetInfo; modules of version 2, which have no interfaces, are accepted. Then getInfo() gives the description the module gave; after a failure the library stays unusable and can be initialised again.", "quantifier": "all histories of calls before, all arguments, all answers of the module", "why_tests_cant": "A test has one module; failures at each point of the sequence, and modules of the other version, do not occur in it.", "anchors": ["src/Crypto/Pkcs11/Pkcs11.cpp: initialize, initializeFunctionList, initializeInterfaceList", "include/FlameIDE/Crypto/Pkcs11/Pkcs11.hpp"]}
{"id": "C140", "title": "The Windows event catcher starts and stops", "statement": "Making the object that catches socket events on Windows returns once its dispatching thread runs, and deleting it ends that thread and returns.", "quantifier": "every schedule of the owner and the dispatching thread, every answer of the system (thread, window and message can or cannot be made)", "why_tests_cant": "Hangs depend on failures of the system and on the schedule of two threads.", "anchors": ["src/Os/Windows/Async/Network/EventCatcher.cpp: EventCatcher::EventCatcher", "src/Os/Windows/Async/Network/EventCatcher.cpp: EventCatcher::~EventCatcher"]}
{"id": "C141", "title": "A socket event on Windows reaches the queue of its class", "statement": "Every event of a registered socket on Windows (data, a connection, the end of a connection, an error) is put in the queue for sockets of its class, in order, and the notificator is called when there is something to take.", "quantifier": "every history of creating, closing, registering and unregistering sockets, of events and of taking from the queues, and all sizes of the queues", "why_tests_cant": "The order of events and calls is unbounded.", "anchors": ["src/Os/Windows/Async/Network/MessageDispatchThread.cpp: handleUdp", "src/Os/Windows/Async/Network/MessageDispatchThread.cpp: handleTcp", "src/Os/Async/Network/Registrar.cpp: Registrar::add"]}
{"id": "C142", "title": "Data at a registered socket is not forgotten on Windows", "statement": "While there is something to read at a registered socket, the program has been told and has not received since, or will be told.", "quantifier": "every history of arrivals, receptions, dispatches and pops, with the rules by which winsock posts messages, and all sizes of the queues", "why_tests_cant": "Whether an event is lost depends on how full the queue is at the moment it is dispatched.", "anchors": ["src/Os/Windows/Async/Network/MessageDispatchThread.cpp: handleUdp", "src/Os/Windows/Async/Network/MessageDispatchThread.cpp: handleTcp", "src/Os/Windows/Async/Network/EventCatcher.cpp: EventCatcher::enable"]}
{"id": "C143", "title": "A socket taken from the queue has something to read on Windows", "statement": "What is taken from the queue for a class of sockets on Windows is a socket of that class which has something to read.", "quantifier": "every history and every class of sockets", "why_tests_cant": "It must hold for every history of events.", "anchors": ["src/Os/Windows/Async/Network/MessageDispatchThread.cpp: handleUdp", "src/Os/Windows/Async/Network/EventCatcher.cpp: EventCatcher::enable"]}
{"id": "C144", "title": "Unregistering a socket on Windows undoes registering it", "statement": "After a socket was registered and unregistered no event of it is reported, and it is as it was before.", "quantifier": "every history after the call and every class of sockets", "why_tests_cant": "It concerns all later events.", "anchors": ["src/Os/Windows/Async/Network/EventCatcher.cpp: EventCatcher::disable", "src/Os/Async/Network/Registrar.cpp: Registrar::remove"]}
{"id": "C145", "title": "Sockets on Windows are not leaked", "statement": "Making and deleting network objects on Windows leaves no socket open, and winsock is started at most once.", "quantifier": "every history of making servers and clients and deleting them, every answer of the system", "why_tests_cant": "Leaks occur at failures of the system and add up over histories.", "anchors": ["src/Os/Windows/Network/SocketFunctions.cpp: createUdpServer, createTcpServer, createUdpClient, createTcpClient, destroy, winsockInit", "src/Os/Network/NetworkBase.cpp: NetworkBase::~NetworkBase"]}
{"id": "C146", "title": "A datagram is received whole on Windows", "statement": "With a buffer as large as wait says, receive of a UDP server on Windows gives the whole of the next datagram, whatever arrives meanwhile, and a reply goes to its sender; datagrams are received in the order of arrival.", "quantifier": "every content of the queue of datagrams, every later arrival, every size of buffers, every history of calls", "why_tests_cant": "The number and the sizes of datagrams are unbounded.", "anchors": ["src/Os/Windows/Network/UdpSocketFunctions.cpp: waitServer, receiveServer", "src/Os/Network/UdpServer.cpp: UdpServer::wait, WithClient::receive, WithClient::send"]}
{"id": "C147", "title": "Sizes and replies of the UDP server on Windows", "statement": "wait gives the size of the next datagram; a datagram that is too long for the buffer is received in part; the program can reply to whatever it received.", "quantifier": "every content of the queue of datagrams, every size of buffers", "why_tests_cant": "The number and the sizes of datagrams are unbounded.", "anchors": ["src/Os/Windows/Network/UdpSocketFunctions.cpp: waitServer, receiveServer, send", "src/Os/Network/UdpServer.cpp: WithClient::receive, WithClient::send"]}
{"id": "C148", "title": "Thread objects on Windows are safe to use", "statement": "On Windows, no sequence of calls on thread objects (construction, moving, run, join, detach, isWorking, deletion), with any failures of the system, reaches undefined behaviour or uses a handle that was closed; what an object holds is an open handle that no other object holds.", "quantifier": "every history of calls on any number of objects, every interleaving with beginnings and ends of the bodies, every answer of CreateThread, every content of padding bytes", "why_tests_cant": "stale handles are reused by the system and harm others only sometimes", "anchors": ["src/Os/Threads/Thread.cpp:ThreadBase", "src/Os/Windows/Threads/ThreadFunctions.cpp:destroy"]}
{"id": "C149", "title": "Thread handles are closed on Windows", "statement": "Every handle that CreateThread returned is closed at the latest when all thread objects are gone.", "quantifier": "every history of calls on any number of objects, every answer of CreateThread", "why_tests_cant": "a leaked handle has no visible effect until the system runs out of them", "anchors": ["src/Os/Threads/Thread.cpp:ThreadBase::run", "src/Os/Threads/Thread.cpp:ThreadBase::detach", "src/Os/Threads/Thread.cpp:ThreadBase::operator="]}
{"id": "C150", "title": "What run, join, detach, isWorking and getStatus tell on Windows", "statement": "After run(), getStatus() is success exactly when a thread was started on this object. join() returns when the body has ended, may be repeated, and is an error without a thread. isWorking() is true exactly when the object has a thread whose body has not ended. detach() of an object with a thread leaves the body alone, closes the handle and makes the object as new.", "quantifier": "every reachable state of any number of objects and threads, every answer of the system", "why_tests_cant": "depends on schedules and failures of the system", "anchors": ["src/Os/Threads/Thread.cpp:ThreadBase::run", "src/Os/Threads/Thread.cpp:ThreadBase::join", "src/Os/Threads/Thread.cpp:ThreadBase::isWorking", "src/Os/Threads/Thread.cpp:ThreadBase::detach", "src/Os/Windows/Threads/ThreadFunctions.cpp:join"]}
{"id": "C151", "title": "A thread that could not be started on Windows can be started again", "statement": "When run() failed because the system had no resources, a later run() on the same object starts the thread if the system has them again.", "quantifier": "every error, every number of attempts, every answer of the system", "why_tests_cant": "failures of CreateThread are not provoked by tests", "anchors": ["src/Os/Threads/Thread.cpp:ThreadBase::run", "src/Os/Windows/Threads/ThreadFunctions.cpp:create"]}
{"id": "C152", "title": "Opening a named pipe for both directions (POSIX)", "statement": "NamedPipeStream::open(name) returns, and then the stream has a reading and a writing end of one and the same pipe, or an error is returned.", "quantifier": "every interleaving of the calling thread and the thread it starts, every state of the name before the call, every failure of mknod and open, and every removal of the name by another process", "why_tests_cant": "the outcome depends on which thread comes first and on what other processes do in between", "anchors": ["src/Streams/CommonFunctions.cpp:makeNamedBidirectional", "src/Streams/Posix/CommonFunctionsImpl.cpp:makeFifo", "src/Streams/Posix/NamedPipeStream.cpp:NamedPipeStream::open"]}
{"id": "C153", "title": "Opening a named pipe for both directions (Windows)", "statement": "NamedPipeStream::open(name) and the constructor with a name return, and then the stream has both ends of the pipe, or an error is returned and no handle is left open.", "quantifier": "every interleaving of the calling thread and the thread it starts", "why_tests_cant": "the outcome depends on which thread comes first; the window between CreateNamedPipe and ConnectNamedPipe is short", "anchors": ["src/Streams/CommonFunctions.cpp:makeNamedBidirectional", "src/Streams/Windows/CommonFunctionsImpl.cpp:makeNamedPipeServer", "src/Streams/Windows/NamedPipeStream.cpp:NamedPipeStream::open"]}
{"id": "C154", "title": "A file stream closes exactly the handles it owns (Windows)", "statement": "On Windows, a handle handed to a FileStreamReader or FileStreamWriter as owner is closed exactly once: when its current owner is destroyed or given another handle; a handle the stream does not own, or has given back, is never closed by it; no call has undefined behaviour.", "quantifier": "every history of constructions, moves, assignments, setFileDescriptor, getFileDescriptor and destructions on any number of streams, interleaved with other code opening and closing handles", "why_tests_cant": "leaks and double closes depend on the whole history; a member without a value usually happens to be false", "anchors": ["src/Streams/Windows/FileStreamReader.cpp:FileStreamReader", "src/Streams/Windows/FileStreamWriter.cpp:FileStreamWriter"]}
{"id": "C155", "title": "A pipe closes its ends and tells whether it was made", "statement": "A PipeStream closes each of the two ends it owns exactly once, also after moves; getStatus() of a new pipe is success exactly if the system made one.", "quantifier": "both systems, every history of constructions, moves, assignments, handing over and taking back of descriptors and destructions on any number of pipes, every failure of the system", "why_tests_cant": "a pipe that cannot be made and a leaked end cannot be provoked at every point by a test", "anchors": ["src/Streams/Windows/PipeStream.cpp:PipeStream", "src/Streams/Posix/PipeStream.cpp:PipeStream"]}
{"id": "C156", "title": "Named pipes close exactly the handles they own (Windows)", "statement": "On Windows, a NamedPipeReader, NamedPipeWriter or NamedPipeStream closes the handles it owns exactly once and no other, and destroying it has no undefined behaviour.", "quantifier": "every history of constructions, moves, assignments, opens, handing over and giving back of handles and destructions; every interleaving of the destruction with other threads that open handles", "why_tests_cant": "a handle closed twice harms only if another thread opens one in between", "anchors": ["src/Streams/Windows/NamedPipeReader.cpp:NamedPipeReader::~NamedPipeReader", "src/Streams/Windows/NamedPipeWriter.cpp:NamedPipeWriter::~NamedPipeWriter", "src/Streams/Windows/NamedPipeStream.cpp:NamedPipeStream::deinit", "src/Streams/Windows/CommonFunctionsImpl.cpp:destroyNamedReader"]}
{"id": "C157", "title": "A mutex excludes, on Windows", "statement": "With the Windows implementation of Mutex, if every thread unlocks only what it locked, at most one thread at a time is between a lock() or successful tryLock() and the unlock() that follows; lock() returns if nobody holds the mutex and waits as long as somebody does; tryLock() tells whether it was free; an unlock() too many does no harm.", "quantifier": "all interleavings of any number of threads with any calls of lock, tryLock, unlock and getStatus", "why_tests_cant": "A test sees a few schedules.", "anchors": ["src/Os/Windows/Threads/MutexFunctions.cpp: lock, tryLock, unlock", "src/Os/Threads/Mutex.cpp"]}
{"id": "C158", "title": "Every Mutex has one semaphore of the system, on Windows", "statement": "Over any history of construction, moves, assignments, uses and deletion of Mutex objects on Windows each object has its own handle, no other handles are open, none is left when all objects are gone, handles of other code are not touched, and a move hands over the mutex as it is, locked or not.", "quantifier": "all histories of calls on any number of objects, with any answers of the system", "why_tests_cant": "Handles are reused by the system in ways a test does not control, and a double close closes something else only then.", "anchors": ["src/Os/Threads/Mutex.cpp: Mutex, operator=, ~Mutex", "src/Os/Windows/Threads/MutexFunctions.cpp: init, destroy"]}
{"id": "C159", "title": "Every Semaphore has one semaphore of the system, on Windows", "statement": "Over any history of construction, moves, assignments, uses and deletion of Semaphore objects on Windows each object has its own handle, no other handles are open, and none is left when all objects are gone.", "quantifier": "all histories of calls on any number of objects, with any answers of the system", "why_tests_cant": "As C158; a leak of a handle is not visible in a test.", "anchors": ["src/Os/Threads/Semaphore.cpp: Semaphore, operator=, ~Semaphore", "src/Os/Windows/Threads/SemaphoreFunctions.cpp: init, destroy"]}
{"id": "C160", "title": "getStatus tells how the last call of this thread went", "statement": "After lock() or unlock() of a Mutex on Windows has returned in a thread, getStatus() called by that thread gives the status of that call.", "quantifier": "all interleavings of any number of threads", "why_tests_cant": "A test sees a few schedules.", "anchors": ["src/Os/Threads/Mutex.cpp: lock, unlock, getStatus"]}
{"id": "C161", "title": "The last owner of a mutex may delete it", "statement": "A thread that holds a Mutex, and knows that no other thread will lock it again, may unlock and delete it: no other thread touches the object after that.", "quantifier": "all interleavings of any number of threads", "why_tests_cant": "The time between the release and the last access is a few instructions; a test does not hit it.", "anchors": ["src/Os/Threads/Mutex.cpp: unlock, ~Mutex"]}
{"id": "C162", "title": "The mutex functions given to PKCS#11 modules follow the standard", "statement": "createMutex gives a usable mutex or an error, lockMutex returns CKR_OK only to a caller that has the mutex, unlockMutex tells when it was not locked, null pointers are refused, and destroyMutex frees what createMutex made.", "quantifier": "all sequences of calls by the module, with any failures of the allocator and the system", "why_tests_cant": "The failures of the system cannot be produced in a test.", "anchors": ["src/Crypto/Pkcs11/MutexReal/InitializeArgsCallbacks.cpp"]}
{"id": "C163", "title": "Operators of byte_t compute on the eight bits", "statement": "The operators <<, >>, |, &, ^ and ~ of byte_t and the compound assignments change the eight bits of the byte as their names say: a shift by n moves each bit by n places and fills with zeros, the others combine bit by bit with the low eight bits of the operand, whatever integer type the operand has. toInteger and toByte keep the low eight bits, and a byte survives the way through any integer type.", "quantifier": "every byte, every sequence of operators, every integer type of the library for the operands, every operand, every shift from 0 to 24", "why_tests_cant": "The operators convert through int, through the operand's type and back; the combinations of byte, type, sign and value are too many to try.", "anchors": ["include/FlameIDE/Common/Byte.hpp", "byte_t", "toInteger", "toByte"]}
{"id": "C164", "title": "A loop over integer iterators sees each integer once, in order", "statement": "A range-based loop over a range of two integer iterators, first and last with first <= last, sees first, first + 1, ..., last - 1, each once and in this order, and ends, for every integer type; the post-increment returns the old value; the comparisons order the iterators as the integers.", "quantifier": "every integer type of the library, every first and last of the type", "why_tests_cant": "The ends of the types are where such loops overflow, and a test tries few of them; the length of the loop is not bounded.", "anchors": ["include/FlameIDE/Templates/IntegerIterator.hpp", "include/FlameIDE/Templates/Iterator/Operators.hpp", "include/FlameIDE/Templates/Range.hpp"]}
{"id": "C165", "title": "Arithmetic on integer iterators is arithmetic on integers", "statement": "Adding an integer to an integer iterator, subtracting one, and the difference of two iterators give the mathematical result whenever it is representable; a loop between two iterators ends.", "quantifier": "every pair of integer types, every values", "why_tests_cant": "The usual arithmetic conversions make the result depend on the pair of types; tests use int.", "anchors": ["include/FlameIDE/Templates/IntegerIterator.hpp", "include/FlameIDE/Templates/Iterator/Operators.hpp"]}
{"id": "C166", "title": "A Tuple holds the values it is made of", "statement": "get<I>() of a Tuple gives the I-th value the tuple was made of, copied or moved from, or last assigned; copying changes neither the source nor other tuples, moving leaves moved-from objects in the source; for each value of a living tuple there is one living object, and none is left when the tuples are deleted.", "quantifier": "every number of elements, every history of constructions, copies, moves, assignments, reads, writes and deletions", "why_tests_cant": "The recursion over base classes reverses the order of construction; histories and lengths are unbounded.", "anchors": ["include/FlameIDE/Templates/Tuple.hpp", "Tuple", "get"]}
{"id": "C167", "title": "An InitializerList yields its arguments in order", "statement": "An InitializerList made of n arguments has the size n, and a loop over it sees the arguments in order, whatever the capacity is.", "quantifier": "every capacity, every non-empty list of arguments not longer than the capacity", "why_tests_cant": "Lengths and capacities are unbounded.", "anchors": ["include/FlameIDE/Templates/InitializerList.hpp", "InitializerList"]}
{"id": "C168", "title": "An InitializerList can be destroyed and traversed safely", "statement": "Destroying an InitializerList destroys each of its elements once; the pointers that begin(list) and end(list) return point into the list.", "quantifier": "every type of elements, every capacity, every arguments", "why_tests_cant": "Destroying an object twice, or reading an object that is gone, has often no visible effect in a test.", "anchors": ["include/FlameIDE/Templates/InitializerList.hpp", "~InitializerList", "begin", "end"]}
{"id": "C169", "title": "A proxying allocator works as the allocator behind it", "statement": "A call on a ProxingAllocator has the effect and the result of the call on the allocator it was made for, through any number of proxies in between, and proxies may be copied and assigned.", "quantifier": "every allocator behind, every history of making, copying, assigning and deleting proxies and of calls, any number of proxies in a chain", "why_tests_cant": "The number of proxies in a chain and the histories are unbounded.", "anchors": ["include/FlameIDE/Templates/Allocator/ProxingAllocator.hpp", "ProxingAllocator"]}
{"id": "C170", "title": "Addresses of the streams library keep what they are made of", "statement": "An Ipv4 or Ipv6 of the streams library made of the text of an address has the numbers of the text, getAddress() gives the text of the address, and copies have the same numbers and port.", "quantifier": "every text, every address", "why_tests_cant": "There are 2^32 addresses and more texts.", "anchors": ["include/FlameIDE/Streams/SocketUtils.hpp", "src/Streams/SocketUtils.cpp", "Ipv4", "Ipv6", "getAddress"]}
{"id": "C171", "title": "Enumerators have the values of the standard's constants", "statement": "Every enumerator of the PKCS#11 enumerations has the value of the constant of the standard header that it is named after, on systems with 32-bit and with 64-bit unsigned long.", "quantifier": "every enumeration, every enumerator (863), both sizes of unsigned long", "why_tests_cant": "863 values; a test names the few it uses, by the same names.", "anchors": ["include/FlameIDE/Crypto/Pkcs11/Types/Enums.hpp", "include/FlameIDE/Crypto/Oasis/pkcs11t.h"]}
{"id": "C172", "title": "Every constant of the standard has an enumerator", "statement": "For every constant of the PKCS#11 header there is an enumerator with its value in an enumeration for constants of its kind.", "quantifier": "every constant of the header (878)", "why_tests_cant": "A missing enumerator is not seen by tests that use others.", "anchors": ["include/FlameIDE/Crypto/Pkcs11/Types/Enums.hpp", "include/FlameIDE/Crypto/Oasis/pkcs11t.h"]}
{"id": "C173", "title": "Flags can be combined and found again", "statement": "Flags of a PKCS#11 flag enumeration combined with | in any number and order: & with a flag gives the flag if it was put in, and no flag otherwise.", "quantifier": "every flag enumeration, every list of its flags, every flag, both sizes of unsigned long", "why_tests_cant": "There are 2^27 sets of mechanism flags alone.", "anchors": ["include/FlameIDE/Crypto/Pkcs11/Types/Enums.hpp", "FLAG_OPERATORS", "OPERATOR"]}
{"id": "C174", "title": "Different enumerators are different values", "statement": "Two different enumerators of a PKCS#11 enumeration have different values unless the standard gives both constants the same value; conversions to an enumeration and back keep every value, also those without an enumerator.", "quantifier": "every pair of enumerators of every enumeration; every value of the underlying types", "why_tests_cant": "There are about a hundred thousand pairs.", "anchors": ["include/FlameIDE/Crypto/Pkcs11/Types/Enums.hpp", "value", "UNDERLYING_TYPE"]}
{"id": "C175", "title": "The exit code of a test program tells whether a check failed", "statement": "The test program of a directory ends with 0 exactly if every condition checked in every case of every test holds, and with 1 otherwise; the statistic counts each test once.", "quantifier": "every list of tests, cases and conditions", "why_tests_cant": "The framework that runs the tests cannot be trusted to test itself: if it loses a failure nobody notices.", "anchors": ["tests/Test.hpp", "src/Templates/Tests/main.cpp", "TestAggregator", "AbstractTest"]}
{"id": "C176", "title": "Containers compare equal exactly if they are", "statement": "compareContainers answers SUCCESS exactly if both containers have the same elements in the same order.", "quantifier": "every pair of sequences", "why_tests_cant": "Sequences of every length; a comparison that stops at the shorter one passes most tests.", "anchors": ["tests/Test.hpp", "compareContainers"]}
{"id": "C177", "title": "Tests can be run again and all together", "statement": "The result of start() is that of the tests it has just run, also when an aggregator is started again, and the program that runs the tests of all directories ends with 0 exactly if all pass.", "quantifier": "every list of tests, every number of runs, every behaviour of the tests in each run", "why_tests_cant": "The framework cannot test itself.", "anchors": ["tests/Test.hpp", "tests/main.cpp", "TestAggregator"]}
{"id": "C178", "title": "Removing const, volatile or a reference removes just that", "statement": "For every type T: RemoveConstType<T> is the one type that is not const and differs from T in nothing else, RemoveVolatileType<T> likewise for volatile, and RemoveReferenceType<T> is T or what T refers to and is never a reference.", "quantifier": "every type of C++ of any depth (with parameter lists as names)", "why_tests_cant": "There are infinitely many types; static assertions check a few.", "anchors": ["include/FlameIDE/Common/Traits/Defaults.hpp", "RemoveConstTrait", "RemoveVolatileTrait", "RemoveReferenceTrait"]}
{"id": "C179", "title": "Predicates on types are exact", "statement": "IsConst, IsVolatile, IsLvalue, IsRvalue, IsReference and ComparingTypes answer true exactly for the const types (those that const does not change, references and functions excepted), volatile types, lvalue references, rvalue references, references and equal types.", "quantifier": "every type, every pair of types", "why_tests_cant": "There are infinitely many types.", "anchors": ["include/FlameIDE/Common/Traits/Functional.hpp", "IsConst", "IsVolatile", "IsLvalue", "IsRvalue", "IsReference", "ComparingTypes"]}
{"id": "C180", "title": "Pointers are recognised", "statement": "IsPointer<T> is true exactly for pointer types and RemovePointerType<T> is what they point to.", "quantifier": "every type", "why_tests_cant": "There are infinitely many types.", "anchors": ["include/FlameIDE/Common/Traits/Functional.hpp", "include/FlameIDE/Common/Traits/Defaults.hpp", "IsPointer", "RemovePointerTrait"]}
{"id": "C181", "title": "RemoveAll gives the bare type", "statement": "RemoveAllType<T> follows all pointers and references and removes all qualifiers, for every type.", "quantifier": "every type of any depth", "why_tests_cant": "There are infinitely many types; the specialisations can be ambiguous for combinations nobody tried.", "anchors": ["include/FlameIDE/Common/Traits/Defaults.hpp", "RemoveAllTrait"]}
{"id": "C182", "title": "The adding traits add what they are named after", "statement": "AddReferenceType, AddMoveReferenceType, AddConstType, AddPointerType and AddVolatileType of T are T &, T &&, const T, T * and volatile T, with the rules of the language for references and void; the members of DefaultTraits likewise.", "quantifier": "every type", "why_tests_cant": "There are infinitely many types.", "anchors": ["include/FlameIDE/Common/Traits/Defaults.hpp", "DefaultTraits", "AddReferenceTrait", "AddVolatileTrait"]}
{"id": "C183", "title": "Places in type lists", "statement": "GetIndexOfType gives the first place of a type in a list of types and -1 exactly if it is not there, GetTypeByIndex gives the type at every place of the list, ComparingTypeWithPack tells whether a type is in the list.", "quantifier": "every type, every list of types of any length, every place", "why_tests_cant": "Lists of every length.", "anchors": ["include/FlameIDE/Common/Traits/Functional.hpp", "GetIndexOfType", "GetTypeByIndex", "ComparingTypeWithPack"]}
{"id": "C184", "title": "Places outside a type list are rejected", "statement": "GetTypeByIndex with an index that is not a place of the list does not compile.", "quantifier": "every list of types, every index outside", "why_tests_cant": "A test cannot contain code that must not compile.", "anchors": ["include/FlameIDE/Common/Traits/Functional.hpp", "GetTypeByIndex"]}
{"id": "C185", "title": "move and forward keep the type and give the right value category", "statement": "move(x) is an xvalue of the type of x, whatever x is. forward<T>(x) for a parameter x declared as T &&, and forward<decltype(x)>(x), are lvalues exactly if the argument of the parameter was one, of the same type. An expression that is an xvalue already is refused by forward.", "quantifier": "every object type, both value categories", "why_tests_cant": "There are infinitely many types, and wrong categories show only as copies or moves elsewhere.", "anchors": ["include/FlameIDE/Common/Utils.hpp", "move", "forward"]}
{"id": "C186", "title": "Signedness traits of integer types", "statement": "For every integer type T exactly one of IsSignedTrait and IsUnsignedTrait is true, as T is; MakeSignedType and MakeUnsignedType give the integer type of the same width with the signedness in their name.", "quantifier": "every integer type of the language, qualified or not, both data models", "why_tests_cant": "Types differ between platforms; a test runs on one of them.", "anchors": ["include/FlameIDE/Common/Traits/Numbers.hpp", "IsSignedTrait", "IsUnsignedTrait", "MakeSignedTrait", "MakeUnsignedTrait"]}
{"id": "C187", "title": "Limits of the fixed-width integers", "statement": "NumberLimitTrait of each of the eight fixed-width integer types, volatile or not: a value is representable exactly if it is not less than MIN_VALUE and not greater than MAX_VALUE.", "quantifier": "every fixed-width integer type, every integer value, both data models", "why_tests_cant": "2^64 values.", "anchors": ["include/FlameIDE/Common/Traits/Numbers.hpp", "NumberLimitTrait"]}
{"id": "C188", "title": "Primitive types are recognised", "statement": "isPrimitiveType, isIntegralType and isFloatType of T tell whether T, without qualifiers and references, is an arithmetic, an integer, a floating-point type.", "quantifier": "every type, both data models", "why_tests_cant": "There are infinitely many types.", "anchors": ["include/FlameIDE/Common/Utils.hpp", "include/FlameIDE/Common/Traits/Numbers.hpp", "isPrimitiveType", "isIntegralType", "isFloatType"]}
{"id": "C189", "title": "The return type of a function", "statement": "FunctionReturnType<T> is the return type of every function, function pointer and member function pointer type.", "quantifier": "every function type", "why_tests_cant": "There are infinitely many types.", "anchors": ["include/FlameIDE/Common/Traits/Functional.hpp", "FunctionReturnValueType"]}
{"id": "C190", "title": "Two ranges of the same type can be compared", "statement": "isEqual(begin1, end1, begin2, end2) can be called for ranges with the same element type.", "quantifier": "every pair of element types", "why_tests_cant": "A test that does not compile is not run.", "anchors": ["include/FlameIDE/Common/Utils.hpp", "isEqual"]}
{"id": "C191", "title": "A thread object that was never started is harmless (Windows)", "statement": "On a Windows thread object that was never started, join() leaves the status 'invalid handle' (-6), detach() leaves -1, isWorking() is false and getStatus() is what the last of these left, 0 at first, whatever is done meanwhile with other objects and by other threads; these calls change no thread and no other object.", "quantifier": "every history of calls on every number of objects, every interleaving with the threads", "why_tests_cant": "All histories and schedules.", "anchors": ["src/Os/Threads/Thread.cpp", "src/Os/Windows/Threads/ThreadFunctions.cpp"]}
{"id": "C192", "title": "A mutex that the system could not make is recognisable (Windows)", "statement": "If Windows refuses to create the semaphore of a Mutex, getStatus() is the negated error of the system until the next call and -6 (invalid handle) after it, tryLock() is always false, and no call ever waits; such a mutex excludes nobody: any number of threads can have returned from lock().", "quantifier": "every error, every history of calls that does not delete the object, every interleaving of any number of threads", "why_tests_cant": "Failures of the system and all schedules.", "anchors": ["src/Os/Threads/Mutex.cpp", "src/Os/Windows/Threads/MutexFunctions.cpp"]}
{"id": "C193", "title": "isWait tells whether a thread waits", "statement": "ConditionVariable::isWait() returns true exactly if some thread is inside wait(); unwait() ends a wait and does nothing if nobody waits.", "quantifier": "every interleaving of any number of threads that call wait, tryWait, unwait, notify and isWait", "why_tests_cant": "All schedules.", "anchors": ["src/Os/Threads/ConditionVarable.cpp: isWait, unwait", "include/FlameIDE/Os/Threads/ConditionVariable.hpp"]}
{"id": "C194", "title": "C_GetInfo describes the software module as PKCS#11 prescribes", "statement": "C_GetInfo stores the version of Cryptoki, the manufacturer and the description, each text padded with blanks to 32 bytes, and flags that are 0.", "quantifier": "every structure of the caller, every text that may be stored there", "why_tests_cant": "The tests do not look at the bytes after the text.", "anchors": ["src/Crypto/SoftPkcs11/Functions/GeneralPurposeFunctions.cpp: getInfo", "include/FlameIDE/Crypto/Oasis/pkcs11t.h: CK_INFO"]}
{"id": "C195", "title": "The software module follows the life cycle of PKCS#11", "statement": "Calls before C_Initialize or after C_Finalize, and a second C_Initialize, are reported; every other call succeeds.", "quantifier": "every sequence of calls of C_Initialize, C_Finalize and C_GetInfo", "why_tests_cant": "Unboundedly many sequences of calls.", "anchors": ["src/Crypto/SoftPkcs11/Functions/GeneralPurposeFunctions.cpp: initialize, finalize, getInfo"]}
{"id": "C196", "title": "The bytes of a TCP connection arrive in order", "statement": "What receive of one end of a TCP connection stored, call after call, is the beginning of what send of the other end said it sent; receive returns the number of bytes stored, at most the size of the range, or -1; numberBytesToRead is the number of bytes sent and not yet received; when receive returns 0 for a range that is not empty, the other end is closed and all it ever sent was received.", "quantifier": "every history of send, receive, disconnect of TcpClient and TcpServer::WithClient at both ends of a connection, every division of the data by the system, every failure, POSIX and Windows", "why_tests_cant": "Unboundedly many histories and divisions of the data by the system.", "anchors": ["src/Os/Network/TcpClient.cpp: send, receive, numberBytesToRead", "src/Os/Network/TcpServer.cpp: WithClient", "src/Os/Posix/Network/TcpSocketFunctions.cpp: send, receive", "src/Os/Windows/Network/TcpSocketFunctions.cpp: send, receive"]}
{"id": "C197", "title": "All of a range can be sent through a TCP connection", "statement": "send sends the bytes of the range, and calling it again with what is left until nothing is left sends all of them.", "quantifier": "every range, every division of the data by the system", "why_tests_cant": "A test over the loopback sees one division of the data, and no ranges of several gigabytes.", "anchors": ["src/Os/Posix/Network/TcpSocketFunctions.cpp: send", "src/Os/Windows/Network/TcpSocketFunctions.cpp: send, receive"]}
{"id": "C198", "title": "Errors of a TCP connection are told", "statement": "A send or receive that fails returns a negative number, getStatus tells which error it was, and getStatus is not negative when the last call succeeded; an error never ends the process.", "quantifier": "every history of calls and failures at both ends of a connection", "why_tests_cant": "The errors of the system cannot be provoked at will in a test.", "anchors": ["src/Os/Network/TcpClient.cpp: send, receive", "src/Os/Network/TcpServer.cpp: WithClient::send, WithClient::receive", "src/Os/Network/NetworkBase.cpp: getStatus, setStatus"]}
{"id": "C199", "title": "The queries about a socket are right", "statement": "The callbacks type, error, isListener and isServer tell for every socket of the library its type, its pending error, whether it listens and whether it belongs to a server, and for anything else that it is not a socket.", "quantifier": "every class of network object, every pending error, every invalid descriptor, POSIX and Windows", "why_tests_cant": "The value of errno that other functions left.", "anchors": ["src/Os/Network/NetworkBase.cpp: callbacks, getType, getError, isServer, isListener", "src/Os/Posix/Network/SocketFunctions.cpp: getSocketOption, getType, getError, isListener, isServer", "src/Os/Windows/Network/SocketFunctions.cpp: getSocketOption, getType, getError, isListener, isServer"]}
{"id": "C200", "title": "A UDP client receives the datagrams of its server", "statement": "Datagrams are received one per call, in the order of arrival, whole when the range is as large as wait says; what is sent goes to the server whole; only datagrams of the server are received, and one that is too long is told.", "quantifier": "every history of wait, send, receive and arrivals, every size", "why_tests_cant": "Unboundedly many histories of arrivals.", "anchors": ["src/Os/Network/UdpClient.cpp: wait, send, receive", "src/Os/Posix/Network/UdpSocketFunctions.cpp: send, receiveClient, waitClient"]}
{"id": "C201", "title": "Errors of a UDP client are told", "statement": "A call that fails returns the negative error, which is also in getStatus, and changes nothing else; getStatus is not negative when the last call succeeded.", "quantifier": "every call, every error, every history", "why_tests_cant": "The errors of the system cannot be provoked at will in a test.", "anchors": ["src/Os/Network/UdpClient.cpp: wait, send, receive", "src/Os/Network/NetworkBase.cpp: getStatus, setStatus"]}
{"id": "C202", "title": "A loop from rbegin() to rend() visits every element, last first", "statement": "For every StaticArray, StaticVector, Vector, String and HybridVector a loop over the reverse iterators from rbegin() to rend() visits every element exactly once from the last to the first, what it writes through the iterator stays in the element, nothing else changes, and on an empty container the body is not run; stepping back from rend() to rbegin() visits them in the usual order.", "quantifier": "every container content, every loop body with any state, every HybridVector history", "why_tests_cant": "Unboundedly many contents and loop bodies; the pointer before the first element happens to work on the machine the tests run on.", "anchors": ["include/FlameIDE/Templates/Array.hpp: rbegin, rend", "include/FlameIDE/Templates/Vector.hpp: rbegin, rend", "include/FlameIDE/Templates/String.hpp: rbegin, rend", "include/FlameIDE/Templates/HybridVector.hpp: rbegin, rend, data", "include/FlameIDE/Templates/Iterator/ReverseIterator.hpp", "include/FlameIDE/Templates/Iterator/Operators.hpp"]}
{"id": "C203", "title": "clone() gives a second container with the same elements", "statement": "clone() of a container returns a container with the same elements that is independent of the first one from then on.", "quantifier": "every container of the library that has clone(), every content and history, every later history of the two", "why_tests_cant": "Unboundedly many histories; a missing return statement may work by chance with one compiler and one optimisation level.", "anchors": ["include/FlameIDE/Templates/Vector.hpp: clone", "include/FlameIDE/Templates/String.hpp: clone", "include/FlameIDE/Templates/List.hpp: clone", "include/FlameIDE/Templates/HybridVector.hpp: clone", "include/FlameIDE/Templates/Array.hpp: clone"]}
{"id": "C204", "title": "A HybridVector made of an Array or a Vector has its elements", "statement": "A HybridVector constructed from an Array or a Vector (copied or moved) has its elements and then behaves like the sequence; after assigning one to a HybridVector it has exactly the elements assigned.", "quantifier": "every array that fits, every vector, every later history, every earlier history of the HybridVector assigned to", "why_tests_cant": "Unboundedly many contents and histories; a missing return statement may work by chance.", "anchors": ["include/FlameIDE/Templates/HybridVector.hpp: HybridVector, operator=", "include/FlameIDE/Templates/Variant.hpp: Variant, operator="]}
{"id": "C205", "title": "A CircularVector has the elements it was made of", "statement": "A CircularVector made of a range has the elements of the range, a copy has the elements of the source, assignment copies or moves them, and capacity() is the number of elements there is room for.", "quantifier": "every range, every way of making a CircularVector by constructors, copies and moves", "why_tests_cant": "The class has an empty test; unboundedly many ranges and chains of copies.", "anchors": ["include/FlameIDE/Templates/CircularVector.hpp: CircularVector, operator=, operator[], size, capacity"]}
{"id": "C206", "title": "The Windows sockets library is started before it is used and given back as often as started", "statement": "On Windows a socket call goes on only after WSAStartup has succeeded, reports failure only if its own WSAStartup failed, and when the program ends WSACleanup has been called as often as WSAStartup succeeded, for any number of threads that make their first socket call at any time.", "quantifier": "every number of threads, every interleaving of their calls, every pattern of failures of WSAStartup", "why_tests_cant": "Unboundedly many interleavings; two first calls rarely overlap in a test.", "anchors": ["src/Os/Windows/Socket/SocketFunctions.cpp: initWinSock, SocketFunctions"]}
{"id": "C207", "title": "After reserve(n) a Vector takes n elements without asking for memory", "statement": "After reserve(n), as long as the Vector holds at most n elements, adding at the end, inserting elements or ranges and removing elements works even if no memory is left, gives the expected sequence, and capacity() does not change.", "quantifier": "every earlier history of calls that themselves work, every n, every later history that stays within n, trivial and non-trivial element types, memory or none", "why_tests_cant": "Unboundedly many histories; tests do not run out of memory.", "anchors": ["include/FlameIDE/Templates/Vector.hpp: reserve, pushBack, emplaceBack, insert, emplace, erase, popBack, clean"]}
{"id": "C208", "title": "Adding elements one by one to a Vector costs a constant each on average", "statement": "Pushing k elements to a Vector of any history asks for memory at most logarithmically often, moves in total at most a constant times as many elements as it then holds, and leaves at most a constant factor of unused capacity.", "quantifier": "every earlier history, every number of elements pushed, trivial and non-trivial element types, memory that grows in place or not", "why_tests_cant": "The claim is about the growth as the size tends to infinity; tests see a few sizes.", "anchors": ["include/FlameIDE/Templates/Vector.hpp: pushBack, reserve, getNextCapacity"]}
{"id": "C209", "title": "Values serialised and sent through a TCP connection are the values deserialised", "statement": "A program serialises messages in a byte order and sends them in any pieces; the other end, when it has received as many bytes as the first values have, deserialises exactly these values from them, whatever the byte orders of the two computers, the sizes of the pieces, the other calls in between and the place where the connection breaks. Without errors the loops around send and receive end and give the values.", "quantifier": "every sequence of messages of every integer types, every byte order of both computers and of the messages, every interleaving of the calls of both ends, every way the system splits the bytes, both platforms", "why_tests_cant": "Unboundedly many ways to split and interleave; a test on one computer sees one byte order and whole messages.", "anchors": ["include/FlameIDE/Templates/Serialization/Serializer.hpp: operator()", "include/FlameIDE/Templates/Serialization/Deserializer.hpp: operator()", "src/Os/Network/TcpClient.cpp: send, receive", "src/Os/Network/TcpServer.cpp: WithClient::send, WithClient::receive"]}
{"id": "C210", "title": "Values serialised and written to a RamStream are the values deserialised", "statement": "Messages that were serialised and written to a RamStream, through linear or circular ranges, in any pieces, are deserialised from the bytes read from it, in any pieces, between computers of any byte order.", "quantifier": "every sequence of messages, every history of reads and writes through ranges of any memory, every byte order", "why_tests_cant": "Unboundedly many histories.", "anchors": ["include/FlameIDE/Templates/Serialization/Serializer.hpp: operator()", "include/FlameIDE/Templates/Serialization/Deserializer.hpp: operator()", "src/Streams/RamStream.cpp: read, write"]}
{"id": "C211", "title": "Values sent in datagrams are the values deserialised", "statement": "When a server sends one serialised message in each datagram, the values that a UdpClient deserialises from a datagram it received are those of one message of the server, in any history of waits, sends, receives and arrivals.", "quantifier": "every history, every set of messages of the same types, every range size, every byte order", "why_tests_cant": "Unboundedly many histories and arrival orders.", "anchors": ["src/Os/Network/UdpClient.cpp: receive", "src/Os/Posix/Network/UdpSocketFunctions.cpp: receiveClient", "include/FlameIDE/Templates/Serialization/Deserializer.hpp: operator()"]}
{"id": "C212", "title": "A TCP server gives each client its own connection, in the order of the connections", "statement": "However many clients connect to a server: no connection is accepted twice or lost, accept gives the connections in the order in which they were made (without those the system gave up after their client had closed them), what an accepted object receives is what the client of its connection sent, in order and nothing of the other clients, and the other way round; a connect or accept that fails tells the error and costs no connection; a server that does not listen tells it in every accept and does not wait.", "quantifier": "every interleaving of connects, accepts, sends, receives and closes of every number of clients, every division of the data and every failure by the system, both platforms", "why_tests_cant": "Unboundedly many clients, interleavings and failures.", "anchors": ["src/Os/Network/TcpServer.cpp: TcpServer, accept, WithClient", "src/Os/Network/TcpClient.cpp: connect", "src/Os/Posix/Network/TcpSocketFunctions.cpp: listen, accept, connect", "src/Os/Windows/Network/TcpSocketFunctions.cpp: listen, accept, connect"]}
{"id": "C213", "title": "A lack of memory is told and harms nothing", "statement": "If the system has no memory when a container or pointer asks for it, the call returns, the caller can see that it failed, what was stored before is still there and the object can still be used and destroyed; nothing is lost or stored twice because of the refusal, at whichever request of whichever history it comes.", "quantifier": "every history of calls, every sequence of answers of the system (given, given elsewhere, refused), every element type", "why_tests_cant": "A test cannot refuse memory at every request of every history.", "anchors": ["include/FlameIDE/Templates/Vector.hpp: reserve, pushBack, insert, emplace, Vector(SizeType)", "include/FlameIDE/Templates/String.hpp: resize, BasicString", "include/FlameIDE/Templates/List.hpp: pushBack, pushFront, insert", "include/FlameIDE/Templates/Pointers.hpp: UniquePointer, SharedPointer", "include/FlameIDE/Templates/Allocator/ArrayAllocator.hpp", "include/FlameIDE/Templates/Allocator/ObjectAllocator.hpp"]}
{"id": "C214", "title": "Construction in place passes the arguments on as they were given", "statement": "emplace, emplaceBack and the constructors of the pointers make the new object of exactly the arguments that were given, in their order; an argument that the caller has named keeps its value, and a temporary (or the result of move) is moved from and not copied.", "quantifier": "every number of arguments of every object types, const or not, named or temporary; every state of the container", "why_tests_cant": "All types, value categories and states (with room, full, empty) cannot be tried; a needless copy or a stolen value shows only with some types.", "anchors": ["include/FlameIDE/Templates/Array.hpp: emplace, emplaceBack", "include/FlameIDE/Templates/Vector.hpp: emplace, emplaceBack", "include/FlameIDE/Templates/HybridVector.hpp: emplace, emplaceBack", "include/FlameIDE/Templates/CircularArray.hpp: emplaceBack", "include/FlameIDE/Templates/List.hpp: emplace, emplaceBack, emplaceFront", "include/FlameIDE/Templates/Pointers.hpp: UniquePointer, SharedPointer", "include/FlameIDE/Common/Utils.hpp: forward, emplaceNew"]}
{"id": "C215", "title": "An object that is added is moved from if and only if it is a temporary", "statement": "pushBack, pushFront, insert, +=, construct, Optional and UniquePointer copy an object of the element type that has a name, and move from a temporary or the result of move, so that elements that can only be moved can be added.", "quantifier": "every element type, every named or temporary object, every state of the container", "why_tests_cant": "All element types and states cannot be tried; a copy instead of a move shows only with some types.", "anchors": ["include/FlameIDE/Templates/Array.hpp: pushBack, insert, operator+=, Array(Array &&)", "include/FlameIDE/Templates/Vector.hpp: pushBack, insert", "include/FlameIDE/Templates/HybridVector.hpp: pushBack, insert", "include/FlameIDE/Templates/CircularArray.hpp: pushBack", "include/FlameIDE/Templates/List.hpp: Node, pushBack, pushFront, insert", "include/FlameIDE/Templates/Pointers.hpp: UniquePointer", "include/FlameIDE/Templates/Optional.hpp: Optional, operator=", "include/FlameIDE/Templates/Allocator/ObjectAllocator.hpp: construct", "include/FlameIDE/Common/Utils.hpp: placementNew, move"]}
{"id": "C216", "title": "A copy of a pointer or holder is a copy", "statement": "SharedPointer b(a) makes b refer to the object of a, whether a is const or not; a UniquePointer and an Object cannot be copied; a copy of a Variant leaves the original as it was; an AlignedObject, an InitializerList and a Substep can be passed and returned by value.", "quantifier": "every object type, every state of the pointers, every source (named, named const, temporary)", "why_tests_cant": "The constructor that is called depends on the type and on the category of the source; each combination is another program, and one that does not compile is not tested (the test of copying a SharedPointer is commented out).", "anchors": ["include/FlameIDE/Templates/Pointers.hpp: SharedPointer, UniquePointer", "include/FlameIDE/Templates/Variant.hpp: Variant", "include/FlameIDE/Templates/Object.hpp: Object", "include/FlameIDE/Templates/AlignObject.hpp: AlignedObject", "include/FlameIDE/Templates/InitializerList.hpp: InitializerList", "include/FlameIDE/Templates/Builder.hpp: Substep"]}
{"id": "C217", "title": "A container can be given its own elements", "statement": "An element of a container, or a part of it, can be added to that same container: pushBack(c[j]), insert(it, c[j]), insert(it, c.begin() + b, c.begin() + e), += and pushBack of such a range, s += s.data() + k and s = s.data() + k leave what they would leave with a copy of the argument made before the call; no memory that was given back is read.", "quantifier": "every element type, every reachable state of StaticVector, Vector, String, List and CircularArray, every position and every part of the container", "why_tests_cant": "Whether the argument is read before or after the cells around it move, or the buffer is replaced, depends on the positions and on the capacity; a test covers one combination, and a read of memory that was given back mostly still finds the old value.", "anchors": ["include/FlameIDE/Templates/Array.hpp: StaticVector::pushBack, insert, emplace, operator+=", "include/FlameIDE/Templates/Vector.hpp: Vector::pushBack, insert", "include/FlameIDE/Templates/String.hpp: BasicString::pushBack, insert, operator=", "include/FlameIDE/Templates/List.hpp: List::insert, pushBack, pushFront", "include/FlameIDE/Templates/CircularArray.hpp: CircularArray::pushBack"]}
{"id": "C218", "title": "References to elements stay valid", "statement": "A reference or an iterator to an element of a List refers to that element until it is removed, whatever is added and removed around it, and after the list has been moved from refers to it in the new list; in a StaticVector and in a Vector whose elements fit in its capacity it refers to it as long as only elements behind it are added and removed; in a CircularArray until the element is popped.", "quantifier": "every element type, every reachable state, every element and every sequence of further calls", "why_tests_cant": "A reference that is kept across calls is right or wrong depending on all calls in between; a dangling one mostly still finds the old value.", "anchors": ["include/FlameIDE/Templates/List.hpp: List", "include/FlameIDE/Templates/Array.hpp: StaticVector", "include/FlameIDE/Templates/Vector.hpp: Vector", "include/FlameIDE/Templates/CircularArray.hpp: CircularArray"]}
{"id": "C219", "title": "A buffered writer delivers what it accepts", "statement": "A Writer accepts as many of the offered bytes as its buffer has room for, keeps their order, answers how many it accepted, and flush() hands everything that it has accepted and not yet written to the stream; moving the writer keeps what waits.", "quantifier": "every capacity of the buffer, every content of the stream and every sequence of putData, flush and moves", "why_tests_cant": "What waits in the buffer depends on the whole history, including where in the circular buffer it lies; a test of one put and one flush sees the answer true.", "anchors": ["include/FlameIDE/Streams/Writer.hpp: Writer", "include/FlameIDE/Templates/CircularArray.hpp: CircularArray"]}
{"id": "C220", "title": "UBJSON values are values", "statement": "A BaseValue holds the value it was made from or last assigned; a copy holds what the original held, and changing or destroying one never changes another, whether the value is kept as a member or behind a pointer.", "quantifier": "every sequence of constructions, copies, moves, assignments, writes through getValue() and destructions on any number of variables", "why_tests_cant": "Sharing between copies shows only when one of them is changed or destroyed later, in every possible order.", "anchors": ["include/FlameIDE/Ubjson/BaseValue.hpp: BaseValue", "include/FlameIDE/Templates/Pointers.hpp: SharedPointer"]}
{"id": "C221", "title": "The UBJSON type table is that of the format", "statement": "For every UBJSON type the library gives the marker of the format, the closing marker exactly for the types that have one, and says that data follows exactly where the format has data; no two types have the same marker.", "quantifier": "every type of the format and every pair of types", "why_tests_cant": "The table is constants that tests would repeat; the claim is about all entries and pairs against the format.", "anchors": ["include/FlameIDE/Ubjson/Traits.hpp: ValueTraits", "include/FlameIDE/Ubjson/Types.hpp: ValueType, EnumeratedValueType"]}
{"id": "C222", "title": "A mechanism is answered for by its own callbacks", "statement": "Every question to a PKCS#11 mechanism of the software module is answered by the callback that its class gave for that question, called once, on that object and with that parameter; a mechanism without callbacks of its own offers no operation, says so, and changes nothing.", "quantifier": "every set of callbacks, every state of the program and every sequence of questions to any objects", "why_tests_cant": "The callbacks are code of the application that may do anything; tests see a few of them.", "anchors": ["src/Crypto/SoftPkcs11/Mechanisms/Base/Mechanism.cpp: Mechanism"]}
{"id": "C223", "title": "The status of a lock tells of its last call", "statement": "After a constructor, lock(), unlock(), wait(), post() of a Mutex, Spin or Semaphore on POSIX, getStatus() is 0 exactly if the call succeeded and minus the number of the error otherwise, and the conversion to bool tells whether it succeeded; getValue() gives the value or minus the error.", "quantifier": "every history of calls on any number of objects and every answer of the system, including the value of errno left by other functions", "why_tests_cant": "The failures of the system cannot be produced in a test, and the value of errno depends on everything the thread has done before.", "anchors": ["src/Os/Posix/Threads/MutexFunctions.cpp: RETURN_RESULT, init, lock, unlock", "src/Os/Posix/Threads/SpinFunctions.cpp", "src/Os/Posix/Threads/SemaphoreFunctions.cpp", "src/Os/Threads/Mutex.cpp", "src/Os/Threads/Semaphore.cpp: getValue"]}
{"id": "C224", "title": "wait(functor) blocks while the condition is false and returns when it is true", "statement": "ConditionVariable::wait(functor) returns only after its functor has given true; it does not block while the condition is true, and after a notify() it calls the functor and returns if it gives true.", "quantifier": "every schedule of any number of threads and every result of the functor at every call", "why_tests_cant": "A lost wake-up needs a particular order of the notification and the wait, and the number of functor calls for one notification depends on the schedule.", "anchors": ["include/FlameIDE/Os/Threads/ConditionVariable.hpp: wait(Functor &&)", "src/Os/Threads/ConditionVarable.cpp: wait, notify"]}
{"id": "C225", "title": "The destructor of ConditionVariable", "statement": "When a ConditionVariable is destroyed, the threads blocked in wait() return, the destructor returns, the lock is free, and no thread uses the object afterwards.", "quantifier": "every schedule of the destroying thread and the waiting threads, every kind of lock", "why_tests_cant": "Whether a waiting thread still touches the destroyed object depends on the schedule, and a test sees nothing when it does.", "anchors": ["src/Os/Threads/ConditionVarable.cpp: ~ConditionVariable, notify", "src/Os/Threads/Utils.cpp: ~UniqueLocker"]}
{"id": "C226", "title": "Iterators compare as their positions do", "statement": "Two iterators of one container, of type Iterator or ConstIterator, const variables or not, are equal exactly when they are at the same position, and < > <= >= follow the positions; a loop from begin() to cend() visits every element.", "quantifier": "all containers, all pairs of iterator types and of const and non-const operands, all positions, all operators", "why_tests_cant": "Which operator an expression calls depends on the types and on const; a wrong choice compiles, and most tests compare two iterators of one type.", "anchors": ["include/FlameIDE/Templates/Iterator/BaseIterator.hpp: operator==, operator!=, operator bool", "include/FlameIDE/Templates/Iterator/Operators.hpp: FLAMEIDE_ITERATOR_OPERATOR_MORE, LESS, MORE_EQUAL, LESS_EQUAL", "include/FlameIDE/Templates/List.hpp: ListIterator, ListConstIterator"]}
{"id": "C227", "title": "Pointers, optionals, variants and addresses are equal when they refer to or hold the same", "statement": "Two SharedPointers or UniquePointers are equal exactly when they refer to the same object; two Optionals or Variants when they hold equal values, an Optional and a number when it holds that number; two Ipv4 when address and port are the same.", "quantifier": "all objects, values, addresses and ports, const and non-const operands", "why_tests_cant": "The comparisons compile although most of these classes declare none, and the answers agree with the intended ones on many pairs.", "anchors": ["include/FlameIDE/Templates/Pointers.hpp: SharedPointer::operator bool, UniquePointer::operator bool", "include/FlameIDE/Templates/Optional.hpp: operator bool", "include/FlameIDE/Templates/Variant.hpp: operator==, operator bool", "include/FlameIDE/Os/Network/Ipv4.hpp: operator bool"]}
{"id": "C228", "title": "A reference wrapper refers to the object it is made from", "statement": "A wrapper made from an object, or from a pointer to it, refers to that object: get() and -> give it, what is written through one is seen through the other; it converts to true exactly when it refers to an object, and a wrapper made for const objects does not change them.", "quantifier": "all objects and pointers, const or not, named or not, all contents of memory", "why_tests_cant": "Which overload is called depends on the type of the argument, its const and whether it has a name; the wrong one compiles too.", "anchors": ["include/FlameIDE/Common/ReferenceWrapper.hpp: ReferenceWrapper, makeReferenceWrapper, makeConstReferenceWrapper, getReference, getConstReference"]}
{"id": "C229", "title": "A Vector that threads use under one lock is one sequence for all of them", "statement": "If every thread touches a Vector only inside the scope of a Locker of one lock, and tests and takes in the same scope, then adding, taking the first or the last element, counting and reading behave as if each call happened at one instant; every added element is still there or was taken exactly once, nothing is read that is not there, and every waiting thread can still finish.", "quantifier": "every number of threads, every interleaving of their steps, every sequence of calls, trivial and non-trivial element types, realloc or fresh memory", "why_tests_cant": "The outcome depends on the interleaving; a test runs a few of them.", "anchors": ["include/FlameIDE/Templates/Vector.hpp: pushBack, popBack, erase, size, operator[]", "include/FlameIDE/Os/Threads/Utils.hpp: Locker", "src/Os/Threads/Utils.cpp: Locker::Locker, Locker::~Locker"]}
{"id": "C230", "title": "Reads and writes make progress on both systems", "statement": "Reading into and writing from a linear range that is not empty transfers at least one byte whenever the system is willing to, and a read reports 0 exactly at the end of the input, on Posix and on Windows and for every size of the range; so a loop that writes the rest of a range until nothing is left ends after having written exactly its bytes.", "quantifier": "every contents of the file, every range in every memory, every size, every sequence of answers of the system", "why_tests_cant": "It must hold for all sizes of ranges, also those larger than 4 GiB, and for all partial transfers.", "anchors": ["src/Streams/Windows/FileStreamReader.cpp: FileStreamReader::read", "src/Streams/Windows/FileStreamWriter.cpp: FileStreamWriter::write", "src/Streams/Posix/FileStreamReader.cpp: FileStreamReader::read", "src/Streams/Posix/FileStreamWriter.cpp: FileStreamWriter::write"]}
{"id": "C231", "title": "Iterators of a HybridVector are ordered by position", "statement": "Two iterators of a HybridVector compare by each of the six operators as their positions do, wherever the elements are stored; so a loop that goes up while it < end() visits each element once in order, one that goes down while it > begin() visits them backwards, and it[n] is the element n positions on.", "quantifier": "every history of pushes, pops, insertions, erasures and cleanings, every capacity of the fixed part, every pair of positions, every operator", "why_tests_cant": "The storage changes with the history; the comparison depends on which storage each iterator was taken from.", "anchors": ["include/FlameIDE/Templates/HybridVector.hpp: Iterator::operator<, operator>, operator<=, operator>=, operator==, operator!=, operator[]"]}
{"id": "C232", "title": "The notificator that is set is called, and none that was taken back", "statement": "Each time the catcher of network events notifies, the notificator given last by setNotificator() is called, exactly once, and nothing is called only if none is set; once unsetNotificator() has returned, or another notificator was set, the old one is not called and not running, so that it can be destroyed.", "quantifier": "every interleaving of any number of notifying threads with the calls of the application; every number of notificators", "why_tests_cant": "It depends on where the other threads are inside notify() when the notificator is changed.", "anchors": ["src/Os/Async/Network/EventCatcherBase.cpp: setNotificator, unsetNotificator, notify", "src/Os/Async/Network/Registrar.cpp: setNotificator, unsetNotificator", "src/Os/Posix/Async/Network/EventCatcher.cpp: signalHandler", "src/Os/Windows/Async/Network/MessageDispatchThread.cpp: action", "include/FlameIDE/Common/ReferenceWrapper.hpp: ReferenceWrapper"]}
{"id": "C233", "title": "+= appends the text of its operand, whatever its type", "statement": "string += x appends exactly the text of x: the character, the characters of a C string up to its terminator, the characters of a string or of a range, the digits of an integer; whether x is const or not, named or temporary. string -= x removes exactly what x refers to: the character at an iterator or reverse iterator, the characters of a range.", "quantifier": "every construction and history of a string, every operand of every type the operators take", "why_tests_cant": "The overload depends on the type, constness and value category of the operand; a wrong one compiles and is silent.", "anchors": ["include/FlameIDE/Templates/String.hpp: operator+=, operator-=, pushBack, erase", "include/FlameIDE/Templates/Iterator/BaseIterator.hpp: internalData"]}
{"id": "C234", "title": "Copies, moves and assignments of HybridVectors", "statement": "A HybridVector copied from another has its elements, and the two are independent of each other afterwards; one moved or assigned from another has the elements the source had; an object that was moved from can be filled again. Assigning replaces whatever the target held, wherever the elements of either are kept.", "quantifier": "every program of constructions, copies, moves, assignments and calls on any number of HybridVectors, every type of element and every capacity of the fixed part", "why_tests_cant": "All four are defaulted and go through the variant; what happens depends on where both objects keep their elements, which depends on their whole history.", "anchors": ["include/FlameIDE/Templates/HybridVector.hpp HybridVector(const Me &), HybridVector(Me &&), operator=", "include/FlameIDE/Templates/Variant.hpp Variant(const Me &), Variant(Me &&), operator="]}
{"id": "C235", "title": "HybridVector element lifetimes", "statement": "Every element constructed in a HybridVector - in the fixed part, in dynamic memory, or in a temporary while the elements change place - is destroyed exactly once, by erase, popBack, clean, a change of place or the destructor; nothing is assigned to or destroyed twice.", "quantifier": "every history of operations with any number of changes of storage, with and without successful realloc, every capacity of the fixed part", "why_tests_cant": "lifetime errors are silent for trivially destructible test element types, and each change of storage moves every element through two temporaries", "anchors": ["include/FlameIDE/Templates/HybridVector.hpp: useArray, useVector, clean, erase, emplace, ~HybridVector", "include/FlameIDE/Templates/Variant.hpp: Variant(T &&), operator=(Me &&), reset, ~Variant"]}
{"id": "C236", "title": "CircularArray objects in whole programs", "statement": "A program may make CircularArrays, use them, copy, move, assign and destroy them in any order: a copy is an independent queue with the same elements, a move takes the elements over, an assignment replaces the queue, and every element is destroyed exactly once when its container is destroyed.", "quantifier": "every program, with any number of containers, copies, moves, assignments and destructions in any order, every capacity, every element type with constructors and destructors", "why_tests_cant": "what a copy reads depends on how far the source has been popped, and the error of a copy shows only when it is destroyed, after any history; tests use trivially destructible elements", "anchors": ["include/FlameIDE/Templates/CircularArray.hpp: CircularArray(const Me &), CircularArray(Me &&), operator=, ~CircularArray, clean, popFront, pushBack"]}
{"id": "C237", "title": "Ownership of sockets on Windows", "statement": "On Windows too, every socket that is open belongs to exactly one network object: creating, accepting, moving, assigning, disconnecting, reconnecting and destroying UdpServer, UdpClient, TcpServer, TcpClient and TcpServer::WithClient objects closes each socket exactly once, closes no socket of another object, and when all objects are destroyed no socket is open.", "quantifier": "every program, with any number of objects, every order of calls, and every answer of Windows (failed start of winsock, failed creation, option, bind, listen, accept and connect)", "why_tests_cant": "which sockets are open depends on the whole history of moves and failures, and the tests of the project run on one system and destroy their objects once", "anchors": ["src/Os/Network/NetworkBase.cpp: ~NetworkBase, operator=", "src/Os/Network/TcpServer.cpp: accept, WithClient", "src/Os/Network/TcpClient.cpp: disconnect, reconnect", "src/Os/Windows/Network/SocketFunctions.cpp: createUdpServer, createTcpServer, createUdpClient, createTcpClient, destroy"]}
{"id": "C238", "title": "A range covers exactly what it is made of", "statement": "A range made of an array, of a pointer and a number of elements, of two iterators or of a container covers exactly these elements: a loop over it runs its body once on each, in order, what the body assigns stays in the element, and no other byte of memory changes; the byte range of an object covers exactly the bytes of the object, in order; a reverse range covers the elements from the last to the first.", "quantifier": "every element size, every number of elements, every memory around them, every loop body with any state, every container type", "why_tests_cant": "All sizes and contents, and bytes next to the elements that no assertion looks at; that a function template cannot be instantiated is not seen until somebody calls it.", "anchors": ["include/FlameIDE/Templates/Range.hpp: Range, makeRange, makeConstRange, makeReverseRange, makeConstReverseRange, makeByteRange, makeConstByteRange", "include/FlameIDE/Common/Utils.hpp: begin, end, cbegin, cend, rbegin, rend"]}
{"id": "C239", "title": "References to elements of a HybridVector stay valid", "statement": "A reference or an iterator to an element of a HybridVector refers to that element as long as only elements behind it are added, no more than capacity() says there is room for, and removed.", "quantifier": "every element type, every size of the fixed part, every reachable state, every element and every sequence of further calls", "why_tests_cant": "A reference that dangles mostly still shows the old value; it takes the one size at which the elements move, in every history.", "anchors": ["include/FlameIDE/Templates/HybridVector.hpp: pushBack, popBack, insert, emplace, erase, useArray, useVector, Iterator"]}

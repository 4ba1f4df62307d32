{"id": "C01", "title": "Attribute ordering is a total order", "statement": "For two attributes of the same value type, compare_to and the operators <, <=, >, >=, ==, != never raise and describe one total order: exactly one of a<b, a==b, a>b holds, the relation is transitive and antisymmetric, compare_to returns 0 exactly when a==b, and its sign flips when the arguments are swapped. It holds for every text, integer, boolean and identifier value, for continuous values that are not NaN, and for timestamps that are all time-zone aware or all naive.", "quantifier": "all pairs and triples of same-type attributes with any key and any value of the type", "why_tests_cant": "the value spaces are infinite and transitivity speaks about all triples", "anchors": ["src/opyenxes/model/XAttribute.py:XAttribute.compare_to", "src/opyenxes/model/XAttributeLiteral.py:compare_to,__eq__,__lt__", "src/opyenxes/model/XAttributeDiscrete.py", "src/opyenxes/model/XAttributeBoolean.py", "src/opyenxes/model/XAttributeContinuous.py", "src/opyenxes/model/XAttributeID.py", "src/opyenxes/model/XAttributeTimestamp.py", "src/opyenxes/utils/CompareUtils.py"]}
{"id": "C02", "title": "Attribute equality across types, and where it stops being symmetric", "statement": "Equality between any two attributes never raises. Between two non-collection attributes of different types it is always False. a==b and b==a agree for every pair except when exactly one of the two is a list or container and the keys are equal; in that case the collection says equal and the other says different.", "quantifier": "all pairs of attributes of any type, key and value", "why_tests_cant": "ranges over all pairs of types, keys and values; the exceptional pairs must be shown to be the only ones", "anchors": ["src/opyenxes/model/XAttribute.py:__eq__", "src/opyenxes/model/XAttributeCollection.py", "src/opyenxes/model/XAttributeList.py", "src/opyenxes/model/XAttributeContainer.py"]}
{"id": "C03", "title": "Equal attributes hash alike", "statement": "If two non-collection attributes compare equal then they pass equal values to the hash function, so they are interchangeable as set members and dictionary keys; the same holds for two collections. A collection equals every other attribute with its key, and then the two hash alike exactly when the other one is a timestamp or a collection.", "quantifier": "all pairs of attributes with values of the documented types", "why_tests_cant": "a violating pair would have to be guessed; the contract speaks about all equal pairs", "anchors": ["src/opyenxes/model/XAttribute.py:__hash__", "src/opyenxes/model/XAttributeLiteral.py:__hash__", "src/opyenxes/model/XAttributeTimestamp.py:__hash__", "src/opyenxes/model/XAttributeContinuous.py:__hash__"]}
{"id": "C04", "title": "Identifiers survive printing and parsing", "statement": "For every identifier x, XID.parse(str(x)) gives an identifier equal to x, also after changing the letter case of the text; two identifiers print the same text only if they are equal; compare_to orders identifiers totally and is 0 exactly for equal ones.", "quantifier": "all 2^128 identifiers", "why_tests_cant": "2^128 values", "anchors": ["src/opyenxes/id/XID.py:XID.parse,__str__,compare_to,__eq__"]}
{"id": "C05", "title": "Timestamps survive printing and parsing", "statement": "For every valid date-time whose zone is absent or a whole-minute UTC offset without a name of its own, parsing the text printed by the timestamp attribute succeeds and gives the same wall-clock time truncated to milliseconds with the same offset (a naive time becomes UTC). In particular the instant changes by less than one millisecond and never moves forward.", "quantifier": "all valid date-times from year 1 to 9999, all microseconds, all whole-minute offsets strictly between -24h and +24h", "why_tests_cant": "about 10^17 values times offsets; formatting/parsing corner cases (sign of negative half-hour offsets, padding, truncation)", "anchors": ["src/opyenxes/model/XAttributeTimestamp.py:__str__", "src/opyenxes/utils/XsDateTimeConversion.py:XsDateTimeConversion.parse_date_time"]}
{"id": "C06", "title": "Date parsing never yields an impossible date and fails in known ways only", "statement": "For every input string, parse_date_time either returns a date-time all of whose fields are in range (real calendar day, offset strictly within 24 hours), or returns None, or raises OverflowError; the last happens only when the zone suffix carries an enormous number. So the documented `None when not parsable' does not hold for every string.", "quantifier": "all strings", "why_tests_cant": "all strings; both the absence of bad results and the absence of other exceptions are universal statements", "anchors": ["src/opyenxes/utils/XsDateTimeConversion.py:parse_date_time"]}
{"id": "C07", "title": "Well-formed XES date strings are read correctly", "statement": "Every string YYYY-MM-DDThh:mm:ss with an optional fraction of one to six digits and an optional zone (Z, +hh:mm or -hh:mm) that denotes a valid date is parsed into exactly those fields: the fraction is read as a decimal fraction of a second, a negative zone subtracts both hours and minutes, and a missing zone means UTC.", "quantifier": "all valid field combinations, all fraction lengths, all zones", "why_tests_cant": "product of all field ranges, fraction lengths and zones", "anchors": ["src/opyenxes/utils/XsDateTimeConversion.py:parse_date_time"]}
{"id": "C08", "title": "insert_ordered inserts exactly one event and reports where", "statement": "trace.insert_ordered(e), when it returns index i, leaves the events of the trace in their previous relative order with e added at position i (trace[i] is e) and nothing else changed; it raises only if a time-zone aware and a naive timestamp have to be compared, and then the trace is unchanged.", "quantifier": "all traces (any mix of events with or without timestamps) and all events", "why_tests_cant": "unbounded traces and timestamp configurations", "anchors": ["src/opyenxes/model/XTrace.py:XTrace.insert_ordered"]}
{"id": "C09", "title": "insert_ordered keeps a trace chronologically sorted", "statement": "If every event of a trace has a timestamp and they are in non-decreasing order, then after insert_ordered of a timestamped event they still are, and the new event comes after all events with the same timestamp; hence filling an empty trace by repeated insert_ordered gives the stable chronological sort of the events. With untimed events in the trace the timed events can end up out of order.", "quantifier": "all sorted traces, all timestamped events, all insertion sequences", "why_tests_cant": "unbounded sequences of insertions", "anchors": ["src/opyenxes/model/XTrace.py:XTrace.insert_ordered"]}
{"id": "C10", "title": "Time bounds are the earliest and latest registered timestamp", "statement": "After registering any finite sequence of events, date-times and other bounds into an empty XTimeBounds, get_start_date is the earliest and get_end_date the latest timestamp contributed (both None when there is none); events without a timestamp and empty bounds contribute nothing, and the order of registration does not matter for the instants reported. Bounds have the same text iff they have the same start and end, to the microsecond and with the same offsets.", "quantifier": "all finite registration sequences of time stamps that are all aware or all naive", "why_tests_cant": "unbounded histories; order independence quantifies over permutations", "anchors": ["src/opyenxes/info/XTimeBounds.py:XTimeBounds.register,__str__"]}
{"id": "C11", "title": "is_within tests membership in the closed interval", "statement": "For bounds with at least one registered timestamp, is_within(d) is True exactly when start <= d <= end, and every timestamp ever registered is within.", "quantifier": "all registration histories and all probes whose time stamps are all aware or all naive", "why_tests_cant": "unbounded histories and probes", "anchors": ["src/opyenxes/info/XTimeBounds.py:XTimeBounds.is_within"]}
{"id": "C12", "title": "Classifiers look at their defining attributes only", "statement": "The class identity an attribute classifier assigns to an event depends only on the event's attributes stored under the classifier's defining keys: changing, adding or removing any other attribute, or the event's id, does not change it. same_event_class is an equivalence relation on events.", "quantifier": "all classifiers, all pairs of events agreeing on the defining keys", "why_tests_cant": "unbounded key sets and attribute maps", "anchors": ["src/opyenxes/classification/XEventAttributeClassifier.py:get_class_identity,same_event_class"]}
{"id": "C13", "title": "When equal class identity means equal attribute values", "statement": "With one defining key two events are in the same class exactly when the printed values agree, a missing attribute counting as the empty text. With two keys the same holds for both keys provided the printed values contain no '&'. With three or more keys it holds if moreover all defining attributes are present; otherwise events with different values can collide.", "quantifier": "all events and all key lists", "why_tests_cant": "injectivity over all pairs of events", "anchors": ["src/opyenxes/classification/XEventAttributeClassifier.py:get_class_identity"]}
{"id": "C14", "title": "Classifier ordering and equality are consistent", "statement": "compare_to on attribute classifiers is 0 exactly when they are equal (same name and same key list); the ordering is antisymmetric, transitive and total; equal classifiers hash alike.", "quantifier": "all pairs/triples of classifiers", "why_tests_cant": "infinite space, transitivity", "anchors": ["src/opyenxes/classification/XEventAttributeClassifier.py:compare_to,__eq__,__hash__"]}
{"id": "C15", "title": "AND classifier combines the defining keys", "statement": "XEventAndClassifier raises ValueError for an empty list; otherwise its keys are exactly the keys of its parts, each once, in increasing order, independently of the order of the parts, and its name is '(n1 AND n2 ...)'. Two events which agree on presence and printed value of every key of every part are in the same class.", "quantifier": "all non-empty lists of classifiers, all events", "why_tests_cant": "unbounded lists of classifiers", "anchors": ["src/opyenxes/classification/XEventAndClassifier.py:XEventAndClassifier.__init__"]}
{"id": "C16", "title": "Event classes partition the log's events", "statement": "derive_event_classes(log, classifier) yields exactly one class per distinct identity occurring in the log; the size of a class is the number of events with that identity, sizes add up to the number of events, and get_class_of(event) finds the class of every event of the log.", "quantifier": "all logs and classifiers", "why_tests_cant": "unbounded logs; counting must be exact for each of them", "anchors": ["src/opyenxes/classification/XEventClasses.py:XEventClasses.derive_event_classes,register,get_class_of,__len__"]}
{"id": "C17", "title": "Class indices are a dense numbering in identity order", "statement": "After derive_event_classes the indices are exactly 0..n-1, get_by_index(i) and get_by_identity agree, and the indices increase with the identity text. The result does not depend on the order of events in the log.", "quantifier": "all logs, all permutations of the registration order", "why_tests_cant": "unbounded logs, all permutations", "anchors": ["src/opyenxes/classification/XEventClasses.py:harmonize_indices,get_by_index,get_by_identity"]}
{"id": "C18", "title": "Registering keeps earlier class numbers", "statement": "register never changes or reuses the index of an existing class and never decreases a size: a new identity gets the next free index and size 1, a known one only has its size increased by one.", "quantifier": "all registration histories", "why_tests_cant": "unbounded histories", "anchors": ["src/opyenxes/classification/XEventClasses.py:register"]}
{"id": "C19", "title": "Log summary counts traces and events", "statement": "Whenever a log summary can be created, get_number_of_traces is the number of traces and get_number_of_event the total number of events of the log at creation time.", "quantifier": "all logs", "why_tests_cant": "unbounded logs", "anchors": ["src/opyenxes/info/XLogInfo.py:XLogInfo.__init__,get_number_of_event,get_number_of_traces"]}
{"id": "C20", "title": "A log summary exists exactly for logs without timestamps and collections", "statement": "Creating a log summary raises AttributeError exactly when some attribute registered (of the log, a trace, an event or nested below) is the first with its key for that level and is a timestamp, list or container; for all other logs it succeeds. So the summary cannot be built for the usual logs with time:timestamp.", "quantifier": "all logs with all attribute nestings, values of the documented types and time stamps that are all aware or all naive", "why_tests_cant": "unbounded logs and nestings; both directions are universal", "anchors": ["src/opyenxes/info/XLogInfo.py:XLogInfo.setup,register_attributes", "src/opyenxes/info/XAttributeInfo.py:register", "src/opyenxes/utils/XAttributeUtils.py:derive_prototype"]}
{"id": "C21", "title": "Attribute frequencies are exact", "statement": "For each registered key, get_frequency is the number of registrations with that key, the frequencies of all keys add up to the number of registered attributes, and get_relative_frequency is their quotient as a double between 0 and 1, with a relative error of at most 2^-53; get_attribute_keys lists every registered key once, in the order of first registration, and get_attributes the prototype of each key in the same order.", "quantifier": "all registration histories", "why_tests_cant": "unbounded histories", "anchors": ["src/opyenxes/info/XAttributeInfo.py:register,get_frequency,get_relative_frequency,get_attribute_keys"]}
{"id": "C22", "title": "Attribute summaries never report types or extensions", "statement": "get_attributes_for_type and get_keys_for_type return an empty answer for every type, and the by-extension queries are empty, whatever was registered.", "quantifier": "all registration histories", "why_tests_cant": "universal over histories", "anchors": ["src/opyenxes/info/XAttributeInfo.py:get_attributes_for_type,get_keys_for_type,get_attributes_for_extension"]}
{"id": "C23", "title": "Event classes in the summary match direct classification", "statement": "For the default and every additional classifier, the event classes held by a log summary equal those of derive_event_classes for the same log and classifier; the name classifier, resource classifier and lifecycle classifier are available when the summary is created without explicit ones. get_event_classifiers gives exactly the classifiers asked for, the default one and these three, each once.", "quantifier": "all logs, all classifier lists", "why_tests_cant": "unbounded logs and classifier lists", "anchors": ["src/opyenxes/info/XLogInfo.py:XLogInfo.__init__,setup,get_event_classes"]}
{"id": "C24", "title": "Summary caching", "statement": "Asking the factory twice for a summary of the same log with equal classifiers returns the same object, even if the log was changed in between (so it can be out of date); asking with a different classifier creates a new summary from the current log and replaces the cached one; a cloned log starts without a cached summary.", "quantifier": "all sequences of log edits and requests", "why_tests_cant": "histories of calls", "anchors": ["src/opyenxes/info/XLogInfoFactory.py:create_log_info", "src/opyenxes/model/XLog.py:get_info,set_info,clone"]}
{"id": "C25", "title": "Registry default is always available", "statement": "At every moment the current default of a registry is either None or one of the available elements; the first registered element becomes the default, later registrations do not change it, set_current_default changes it and makes the element available, and no element is ever lost or listed twice.", "quantifier": "all histories of register and set_current_default calls", "why_tests_cant": "unbounded call histories", "anchors": ["src/opyenxes/utils/XRegistry.py:XRegistry"]}
{"id": "C26", "title": "Extension indices are stable and invertible", "statement": "In the extension manager, get_index(get_by_index(i)) is i for every valid i, get_by_index is None outside the range, registering further extensions never changes the index of one already registered, and no two listed extensions share a URI.", "quantifier": "all registration histories", "why_tests_cant": "unbounded histories", "anchors": ["src/opyenxes/extension/XExtensionManager.py:register,get_by_index,get_index"]}
{"id": "C27", "title": "Re-registering an extension under the same URI", "statement": "After registering an extension, looking it up by URI returns the most recently registered one for that URI, whereas lookup by name, prefix or index keeps returning the first one registered; for an extension whose URI, name and prefix no other registered one has the four lookups agree.", "quantifier": "all registration histories", "why_tests_cant": "unbounded histories", "anchors": ["src/opyenxes/extension/XExtensionManager.py:register,get_by_uri,get_by_name,get_by_prefix,get_by_index"]}
{"id": "C28", "title": "Name mappings: last write wins, no cross-talk", "statement": "After any history of register_mapping calls, mapping a key in a named mapping gives the alias last registered for that key in that mapping, or None if there is none; registrations in one mapping never show in another.", "quantifier": "all histories of registrations", "why_tests_cant": "unbounded histories", "anchors": ["src/opyenxes/info/XAttributeNameMap.py", "src/opyenxes/info/XGlobalAttributeNameMap.py:register_mapping,map,get_mapping"]}
{"id": "C29", "title": "Safe mapping falls back in order", "statement": "map_safely with a mapping object returns the alias in that mapping, else the alias in the standard mapping, else the key itself, so never None; with a mapping name it does the same exactly when a mapping of that name exists, and returns None otherwise.", "quantifier": "all registries, keys and mapping names", "why_tests_cant": "unbounded", "anchors": ["src/opyenxes/info/XGlobalAttributeNameMap.py:map_safely"]}
{"id": "C30", "title": "Singletons", "statement": "However often and with whatever arguments a singleton class is called, the same instance is returned and its initialisation runs once.", "quantifier": "all call sequences", "why_tests_cant": "unbounded call sequences", "anchors": ["src/opyenxes/utils/SingletonClassGenerator.py"]}
{"id": "C31", "title": "Key-list text: what comes back after formatting and extracting", "statement": "For every list of trimmed, non-empty keys without apostrophes, extract_tokens(format_token(keys)) is the list in which each maximal run of adjacent keys without spaces is merged into one space-separated token; so the original list comes back if and only if no two adjacent keys are both free of spaces.", "quantifier": "all lists of keys", "why_tests_cant": "unbounded lists and strings; iff statement", "anchors": ["src/opyenxes/utils/XTokenHelper.py:extract_tokens,format_token"]}
{"id": "C32", "title": "Token extraction yields trimmed, non-empty, quote-free tokens", "statement": "For every string extract_tokens terminates and all returned tokens are non-empty, without surrounding white space and without apostrophes; formatting quotes exactly the tokens that contain a space.", "quantifier": "all strings", "why_tests_cant": "all strings", "anchors": ["src/opyenxes/utils/XTokenHelper.py:extract_tokens,format_token"]}
{"id": "C33", "title": "XES round trip preserves attributes at any depth", "statement": "Writing an attribute (with arbitrarily deep nested attributes, lists and containers) as XES elements and reading it back gives the same tree of types, keys, values and order, up to millisecond truncation of timestamps; the extension is the one registered for the key's prefix; the members of lists and containers come back in order.", "quantifier": "all attribute trees with unique keys per level and readable values", "why_tests_cant": "unbounded depth and width", "anchors": ["src/opyenxes/data_out/XesXmlSerializer.py:add_attributes", "src/opyenxes/data_in/XesXmlParser.py:XesXmlHandler.startElement,endElement"]}
{"id": "C34", "title": "XES round trip preserves the log", "statement": "Serializing a log to XES and parsing it back yields a log with the same traces in the same order, the same events in the same order inside each trace, the same attributes on log, traces and events, and the same flat global attributes; nothing moves from one element to another.", "quantifier": "all logs of any size", "why_tests_cant": "unbounded logs; ordering and placement are universal", "anchors": ["src/opyenxes/data_out/XesXmlSerializer.py:serialize", "src/opyenxes/data_in/XesXmlParser.py"]}
{"id": "C35", "title": "Reading an XES document restores the parser", "statement": "Processing the complete element of any attribute, event or trace leaves the parser's nesting state exactly as before the element, so siblings never influence where later elements are attached.", "quantifier": "all well-formed element trees with readable values", "why_tests_cant": "unbounded nesting", "anchors": ["src/opyenxes/data_in/XesXmlParser.py:startElement,endElement"]}
{"id": "C36", "title": "Global attributes come back flat", "statement": "Globals declared with scope trace or event are read in document order into the respective list of the log; nested attributes of a global are not kept below it but appear as separate globals before it.", "quantifier": "all lists of global attributes with nested attributes", "why_tests_cant": "unbounded", "anchors": ["src/opyenxes/data_in/XesXmlParser.py:endElement", "src/opyenxes/data_out/XesXmlSerializer.py:add_global_attributes"]}
{"id": "C37", "title": "Classifiers in XES: what survives", "statement": "A classifier written to XES and read back keeps its name, and keeps its key list exactly when no two adjacent keys are free of spaces (one key always survives); the two-key classifier concept:name + lifecycle:transition comes back with a single merged key.", "quantifier": "all classifier names and key lists", "why_tests_cant": "unbounded", "anchors": ["src/opyenxes/data_out/XesXmlSerializer.py:serialize", "src/opyenxes/data_in/XesXmlParser.py:startElement", "src/opyenxes/utils/XTokenHelper.py"]}
{"id": "C38", "title": "An unreadable date derails the XES parser", "statement": "If a date element whose value cannot be parsed is not nested in another attribute, reading the document raises IndexError at the end of that element; if it is nested, the enclosing attribute is closed early.", "quantifier": "all documents with an unreadable date value, any position", "why_tests_cant": "universal over documents and bad values", "anchors": ["src/opyenxes/data_in/XesXmlParser.py:startElement,endElement"]}
{"id": "C39", "title": "Unknown elements are ignored and tag case is irrelevant", "statement": "Tags outside the XES vocabulary (and text) by themselves change nothing in the parsed log, wherever they occur: what a foreign element contains is read as if it stood in its place. Upper or lower case of tag names makes no difference.", "quantifier": "all documents, all foreign elements at all positions", "why_tests_cant": "universal over insertion points", "anchors": ["src/opyenxes/data_in/XesXmlParser.py:startElement,endElement"]}
{"id": "C40", "title": "XML text layer round trip", "statement": "A written file, read by an XML reader, gives back the serializer's element tree: all tags, attribute values and texts of legal XML characters come back as they were, except that line breaks and tabs in attribute values come back as blanks, line breaks in text as LF, and white space stands between elements. So the XES and MXML round trips hold through the text for logs without such characters; a log with a character XML does not allow is not written at all.", "quantifier": "all element trees, all logs", "why_tests_cant": "unbounded strings and trees", "anchors": ["src/opyenxes/data_out/XesXmlSerializer.py:serialize", "src/opyenxes/data_out/XMxmlSerializer.py:serialize"]}
{"id": "C41", "title": "File name tests are exact suffix tests", "statement": "can_parse(name) of each parser is True exactly when the name is longer than and ends with one of its suffixes, with exact letter case (despite being documented as ignoring case).", "quantifier": "all file names", "why_tests_cant": "all strings", "anchors": ["src/opyenxes/data_in/XesXmlParser.py:can_parse,ends_with_ignore_case", "src/opyenxes/data_in/XMxmlParser.py:can_parse"]}
{"id": "C42", "title": "At most one registered parser claims a file", "statement": "For every file name at most one of the four standard parsers accepts it, so the result of the universal parser does not depend on the order in which the registry is searched; every format has a suffix its own parser accepts, but files written with the suffix xez are accepted by none.", "quantifier": "all file names, all search orders", "why_tests_cant": "all strings and permutations", "anchors": ["src/opyenxes/data_in/XUniversalParser.py", "src/opyenxes/data_in/XParserRegistry.py", "src/opyenxes/data_out/XesXmlGZIPSerializer.py:get_suffices"]}
{"id": "C43", "title": "MXML reading keeps non-empty process instances in order", "statement": "Reading an MXML document gives one log per Process; its traces are the ProcessInstances with at least one AuditTrailEntry, in document order, each with its entries in document order; empty instances disappear.", "quantifier": "all MXML documents in document form", "why_tests_cant": "unbounded documents", "anchors": ["src/opyenxes/data_in/XMxmlParser.py:startElement,endElement"]}
{"id": "C44", "title": "MXML entry fields", "statement": "The event read from an AuditTrailEntry carries the text of its WorkflowModelElement, EventType, Originator and Timestamp as name, transition, resource and time; texts are trimmed and otherwise kept literally, letter case included; a non-empty unknowntype other than UNKNOWN wins over the text of EventType; a blank Originator gives UNKNOWN; an absent field produces no attribute.", "quantifier": "all entries and texts", "why_tests_cant": "unbounded texts, all field subsets", "anchors": ["src/opyenxes/data_in/XMxmlParser.py:startElement,endElement"]}
{"id": "C45", "title": "MXML data before the first entry is misplaced", "statement": "A data attribute of a process instance placed before its first entry is not stored on that trace: it goes to the log when the log already has traces and to the last read source attribute otherwise; after the first entry it is stored on the trace.", "quantifier": "all documents, all attribute names and values", "why_tests_cant": "universal over document context", "anchors": ["src/opyenxes/data_in/XMxmlParser.py:endElement"]}
{"id": "C46", "title": "MXML round trip: what survives", "statement": "Writing a log to MXML and reading it back keeps the traces with events, the order of events, trimmed event names and standard transitions (in lower case); any other transition comes back as \"unknown\" and a missing one as \"complete\"; no event keeps its resource or timestamp and no data attribute survives.", "quantifier": "all logs", "why_tests_cant": "unbounded logs", "anchors": ["src/opyenxes/data_out/XMxmlSerializer.py:serialize,add_attribute", "src/opyenxes/data_in/XMxmlParser.py"]}
{"id": "C47", "title": "Cloned events", "statement": "event.clone() has a new identity, an own attribute map with the same keys and the same attribute objects: adding or removing attributes on one side is invisible on the other, changing the value of a shared attribute object is visible on both (a list or container has none: AttributeError).", "quantifier": "all events and all later edits", "why_tests_cant": "aliasing must be excluded for every later edit", "anchors": ["src/opyenxes/model/XEvent.py:clone", "src/opyenxes/model/XAttributeMap.py:clone"]}
{"id": "C48", "title": "Cloned traces and logs", "statement": "Cloning a trace or log copies the structure: same number and order of traces and events, same attributes, globals, classifiers and extensions, all events with new ids; later structural edits of the copy (adding/removing traces, events, attributes) leave the original unchanged.", "quantifier": "all logs and all later structural edits", "why_tests_cant": "aliasing over unbounded structures", "anchors": ["src/opyenxes/model/XTrace.py:clone", "src/opyenxes/model/XLog.py:clone"]}
{"id": "C49", "title": "Cloned attributes lose their nested attributes", "statement": "Cloning a non-collection attribute gives an attribute with the same type, key, value and extension, equal to the original unless its value is NaN, which never has nested attributes; cloning a list or container raises AttributeError.", "quantifier": "all attributes", "why_tests_cant": "all attributes", "anchors": ["src/opyenxes/model/XAttributeLiteral.py:clone", "src/opyenxes/model/XAttributeTimestamp.py:clone", "src/opyenxes/model/XAttributeCollection.py"]}
{"id": "C50", "title": "Attribute map passed at construction", "statement": "An event, trace or log created with a non-empty attribute map uses that very map; created with an empty map or none it gets a map of its own, so no two elements ever share a map through the default argument.", "quantifier": "all creation sequences", "why_tests_cant": "aliasing across unbounded creation sequences", "anchors": ["src/opyenxes/model/XAttributable.py:__init__", "src/opyenxes/model/XEvent.py:__init__", "src/opyenxes/factory/XFactory.py"]}
{"id": "C51", "title": "create_event and identity", "statement": "XFactory.create_event(attributes, identity) gives an event with that identity exactly when a non-empty attribute map is given as well; otherwise the requested identity is dropped and a new one is generated.", "quantifier": "all combinations of arguments", "why_tests_cant": "all inputs", "anchors": ["src/opyenxes/factory/XFactory.py:create_event"]}
{"id": "C52", "title": "Extension setters and getters", "statement": "For the standard extensions, after assigning an admissible value (text that is not blank, a number, a positive cost) the matching extract returns that value (stripped for lifecycle model and transition), and every attribute under another key is unchanged; None, blank texts and non-positive costs are passed over, anything else raises. After any history of assignments each key holds what the last effective assignment to it wrote. Exceptions: assigning a concept instance or a cost currency overwrites the concept name, a cost type is stored as the built-in type object, a parent id can never be assigned, only removed, and a time stamp comes back to the second without its time zone. Without the attribute the getters give None (the level and the time stamp -1, the parent id KeyError), with it its value, whatever its class; only for lists and containers they raise AttributeError.", "quantifier": "all elements, all values", "why_tests_cant": "all attribute maps and values; frame condition", "anchors": ["src/opyenxes/extension/std/XConceptExtension.py", "src/opyenxes/extension/std/XCostExtension.py", "src/opyenxes/extension/std/XIdentityExtension.py", "src/opyenxes/extension/std/XLifecycleExtension.py", "src/opyenxes/extension/std/XOrganizationalExtension.py", "src/opyenxes/extension/std/XMicroExtension.py", "src/opyenxes/extension/std/XTimeExtension.py"]}
{"id": "C53", "title": "Lifecycle decoding", "statement": "StandardModel decoding maps every string to one of the 13 standard transitions, of which 'unknown' is one, ignores case and surrounding white space, leaves standard transitions fixed and gives 'unknown' for every other text; assigning a standard transition and extracting it returns the same transition. A log uses the standard model iff its model attribute is the word 'standard', with or without white space around; the template's default value is another word. Anything but text is refused with an AttributeError.", "quantifier": "all strings", "why_tests_cant": "all strings", "anchors": ["src/opyenxes/extension/std/XLifecycleExtension.py:StandardModel.decode,assign_standard_transition,extract_standard_transition"]}
{"id": "C54", "title": "Model references do not survive", "statement": "Extracting semantic model references after assigning a list of references returns the lower-cased texts joined with blanks, cut only where a backslash is followed by the letter s, so a single text if there is no such place; no non-empty list of references ever comes back. References given as URIs are treated the same by their texts, and reading them back as URIs raises ValueError iff one of the texts that come back is no URL. Assigning raises TypeError iff some reference is no text.", "quantifier": "all lists of references", "why_tests_cant": "all lists", "anchors": ["src/opyenxes/extension/std/XSemanticExtension.py:assign_model_references,extract_model_references"]}
{"id": "C55", "title": "Nested cost values: reading fails, writing along a path works", "statement": "Extracting nested amounts, drivers or types raises TypeError exactly when some attribute at any depth holds one (AttributeError can come first if it is a collection), and otherwise returns an empty dictionary; assigning by key alone fails for amounts and drivers; assigning along explicit key paths creates the missing path elements, stores the value at the end of each path and leaves other branches unchanged; the first value that is refused ends the assignment, keeping what was stored before; an empty path and an empty dictionary change nothing.", "quantifier": "all attribute trees and paths", "why_tests_cant": "unbounded trees", "anchors": ["src/opyenxes/extension/std/XAbstractNestedAttributeSupport.py"]}
{"id": "C56", "title": "An element never reports used extensions", "statement": "get_extensions of an attribute, event or trace returns the empty set for every attribute content.", "quantifier": "all attribute trees", "why_tests_cant": "universal over unbounded trees", "anchors": ["src/opyenxes/model/XAttributable.py:get_extensions"]}
{"id": "C57", "title": "Duration formatting decomposes the duration", "statement": "The days, hours, minutes, seconds and milliseconds printed by format_duration add up to the given duration, with hours at most 24, minutes and seconds at most 60 and milliseconds at most 1000, where the maximum is reached only at exact multiples. For a float the same holds, without any rounding, below 2^53 milliseconds; for longer ones the rest after the days is exact. Negative floats are not taken apart, and infinity becomes 'nan days, nan milliseconds'.", "quantifier": "all non-negative integer durations and all floats", "why_tests_cant": "infinitely many durations", "anchors": ["src/opyenxes/utils/XTimer.py:format_duration"]}
{"id": "C58", "title": "Extension definition files put everything on log level", "statement": "Whatever element an attribute is declared under in an extension definition, the read extension lists it as a log attribute and the trace, event and meta attribute sets stay empty. The extension is the last one whose URI could be reached while reading; if none can be reached, no definition with a level or an attribute can be read. An alias inside an attribute element is registered globally for that attribute; an alias outside attribute elements does nothing.", "quantifier": "all extension definition documents", "why_tests_cant": "universal over documents", "anchors": ["src/opyenxes/extension/XExtensionParser.py"]}
{"id": "C59", "title": "Defined attributes of an extension are frozen at the first query", "statement": "get_defined_attributes returns the union of the log, trace, event and meta level at the time of its first call; attributes added later never appear. The four levels are edited apart.", "quantifier": "all histories of additions and queries", "why_tests_cant": "unbounded histories", "anchors": ["src/opyenxes/extension/XExtension.py:get_defined_attributes"]}
{"id": "C60", "title": "Extended events lower-case the organizational attributes", "statement": "After set_resource, set_role or set_group of an XExtendedEvent with text that is not blank, the getter returns the lower-cased text. Blank text changes nothing and anything but text raises AttributeError.", "quantifier": "all texts and attribute maps", "why_tests_cant": "all texts", "anchors": ["src/opyenxes/extension/std/XExtendedEvent.py:set_resource,set_role,set_group"]}
{"id": "C61", "title": "The alpha algorithm computes the ordering relations", "statement": "The alpha algorithm raises IndexError exactly when the log has an empty trace; otherwise its start, end and all-event sets are those of the log, its direct-succession, causality, choice and parallel relations are as defined, and any two activities stand in exactly one of: causes, is caused by, choice, parallel.", "quantifier": "all logs, all iteration orders of the sets", "why_tests_cant": "unbounded logs; the order of sets varies between runs", "anchors": ["example/AlphaAlgorithm.py:_generate_footprint,_extract_events"]}
{"id": "C62", "title": "The alpha algorithm finds exactly the pairs of sets of the definition", "statement": "The pairs (A, B) the alpha algorithm builds are, as pairs of sets and each once, exactly those of two non-empty sets of activities where everything in A causes everything in B and no two members of a set follow each other, although the enumeration leaves out the set of all activities.", "quantifier": "all logs, all iteration orders of the sets", "why_tests_cant": "exponentially many sets, set order varies", "anchors": ["example/AlphaAlgorithm.py:_build_pairs"]}
{"id": "C63", "title": "The places of the alpha algorithm are the maximal pairs", "statement": "The places are exactly the pairs not below another pair, each once; every pair is below a place; every causal relation between activities that do not follow themselves is expressed by some place, and an activity that follows itself is in none.", "quantifier": "all logs, all iteration orders of the sets", "why_tests_cant": "existence of maximal elements, all logs", "anchors": ["example/AlphaAlgorithm.py:_generate_places"]}
{"id": "C64", "title": "The alpha algorithm's net text lists every arc", "statement": "The generated text declares all places and one transition per activity with exactly the places it consumes from and produces to; no arc is lost by testing the sides with if/elif.", "quantifier": "all logs without empty traces", "why_tests_cant": "all logs", "anchors": ["example/AlphaAlgorithm.py:_generate_text"]}
{"id": "C65", "title": "Filtering variants keeps the first trace of each variant", "statement": "The variant filter keeps exactly the traces whose sequence of event identities occurs for the first time, in order, with all other data of the log; filtering twice is filtering once.", "quantifier": "all logs whose events can be identified by the classifier", "why_tests_cant": "universal over logs, positions", "anchors": ["example/filter_compress_log.py"]}
{"id": "C66", "title": "CSV conversion loses the last group and splits cases", "statement": "The CSV converter starts a new trace at each row whose case differs from the case of the first row (not of the row before), and the last group of rows is never added to the log: the log's events are a proper prefix of the rows' events, and a file with one case gives an empty log. An unconvertible row anywhere means that nothing is written; a row is convertible iff it has no more cells than titles and each cell from the third on fits its column: a text for Activity and Resource, a time (stored under time) for titles with a year format, a whole number otherwise. A cell that does not fit raises ValueError, and a row with too many cells KeyError if all others fit.", "quantifier": "all file contents, all date parsers, all identifier sources", "why_tests_cant": "unbounded files", "anchors": ["example/Csv_to_xes_file.py"]}
{"id": "C67", "title": "Anonymising hides exactly the first-level resources", "statement": "The anonymiser raises AttributeError exactly when a list or container among the global, trace and event attributes has a resource key; otherwise exactly the values of those attributes with a resource key become UNKNOWN and everything else is unchanged. Resources among the log's own attributes and nested attributes are left readable.", "quantifier": "all logs", "why_tests_cant": "universal over logs", "anchors": ["example/Anonymize_a_log.py"]}
{"id": "C68", "title": "Clustering distributes all traces but drops the log's declarations", "statement": "The clustering vectors of two traces are equal exactly when the traces have the same events up to order; every trace goes into the log of its predicted cluster in the original order, so together the new logs have exactly the traces of the log; the new logs have its attributes and extensions but no classifiers and no global attributes; KeyError is raised iff a cluster is predicted that has no centre.", "quantifier": "all logs, all clusterings, all iteration orders of the sets", "why_tests_cant": "clustering is nondeterministic; set order varies", "anchors": ["example/Cluster_a_log.py"]}
{"id": "C69", "title": "What is computed from a log survives writing and reading", "statement": "When a log is written to XES text and the text is parsed, classifying the result gives the same variants and event classes (for classifiers that do not look at time stamps without a zone), the summary gives the same numbers of traces and events and the same key frequencies, and the time boundaries are the same instants to the millisecond; for logs without lists and containers the one has a summary exactly when the other has. A classifier on a time stamp without a zone can change its classes.", "quantifier": "all logs with readable values filed under their keys and without line breaks in texts, all classifiers, all extension managers and identifier sources", "why_tests_cant": "composition of serializer, XML text, parser and statistics over all logs", "anchors": ["src/opyenxes/data_out/XesXmlSerializer.py:serialize", "src/opyenxes/data_in/XesXmlParser.py", "src/opyenxes/classification/XEventClasses.py", "src/opyenxes/info/XLogInfo.py", "src/opyenxes/info/XTimeBounds.py"]}
{"id": "C70", "title": "Saved logs are found again on disk", "statement": "Saving a log with readable values, legal characters and no line breaks in values to a file with the serializer's suffix and loading that file with the universal parser gives the same log (for MXML what that format keeps of it), whatever the order of the registered parsers; for compressed files whatever the locale's encoding, for plain files if the encoding is the same lawful one (UTF-8, ISO 8859-1, ASCII are). Saving fails exactly if the text cannot be made or not be encoded, so never for compressed files and UTF-8 if the characters are legal. The bytes on the disk are the serialized text, compressed and in UTF-8 for the two gzip formats, plain and in the locale's encoding for the others. No other file is touched. Read in another encoding the log can be different.", "quantifier": "all logs, paths, disks, parser orders, encodings, compressors", "why_tests_cant": "composition of serializer, text, encoding, compression, file names and parser over all logs", "anchors": ["src/opyenxes/data_out/XesXmlGZIPSerializer.py:serialize", "src/opyenxes/data_out/XMxmlGZIPSerializer.py:serialize", "src/opyenxes/data_in/XesXmlGZIPParser.py:parse", "src/opyenxes/data_in/XUniversalParser.py:parse"]}
{"id": "C71", "title": "A failed save destroys the file", "statement": "When the log cannot be serialized (for instance because of a character XML does not allow) or encoded, the earlier content of the file is lost: the file is empty, or the compression of nothing, the universal parser refuses it if its name has an ending of the format, and no other file is touched. Loading by the universal parser raises FileNotFoundError (an OSError) if there is no such file and otherwise, whatever is wrong with name or content, the exception that no suitable parser was found.", "quantifier": "all logs, paths, disks, formats, encodings", "why_tests_cant": "universal over logs and failures", "anchors": ["src/opyenxes/data_out/XesXmlSerializer.py:serialize", "src/opyenxes/data_out/XesXmlGZIPSerializer.py:serialize"]}
{"id": "C72", "title": "The extension cache never caches and never loads", "statement": "Over every sequence of calls of XExtensionManager.cache_extension and load_extension_cache that starts in a file system where everything lies in a folder, (a) the manager's extensions never change; (b) no file gets any content: a file that differs from before is empty; (c) at most one call returns normally, because the support folder it creates with os.makedirs makes every later call fail with OSError; (d) with USERPROFILE unset (as usual outside Windows) every call raises and neither the file system nor the manager changes; (e) the first call of cache_extension that gets an answer creates the folder of the cache and in it an empty file named like the end of the URI (with the ending .xesext), and raises TypeError unless the answer is empty, while load_extension_cache only creates the folder; (f) with the support folder existing or a file in its way both raise OSError and change nothing, and a URI that is empty, ends in a slash or has none is refused with IndexError, TypeError or ValueError.", "quantifier": "all platforms, profile folders, current folders, networks (answers may differ per call), definitions, file ages and call sequences", "why_tests_cant": "The folders are taken from the user's home and the network is used, so tests skip this code; that nothing is ever loaded is a statement about all histories.", "anchors": ["src/opyenxes/extension/XExtensionManager.py:130-201", "src/opyenxes/utils/XRuntimeUtils.py:13-86"]}
{"id": "C73", "title": "Equality of events, traces and logs goes by event ids alone", "statement": "event == event iff they have the same id; trace == trace iff their events have the same ids in the same order; log == log iff this holds trace by trace; attributes, classifiers, globals, features and extensions never matter, an event equals no trace or log, and a log equals a trace iff both are empty. Consequently log.index(t) is the first trace with the ids of t (ValueError if there is none), which is t's own place if no id occurs twice in the log and t has an event; log.remove(t) removes that trace and nothing else; trace.index(e) and trace.remove(e) do the same with the first event of that id (ValueError if there is none); trace.count(e) counts ids and log.count(t) lists of ids; e in trace and t in log hold iff the id, or the list of ids, occurs. With two traces without events the second is confused with the first (refuted otherwise). With fresh ids a clone of an event is never equal to it, and a clone of a trace or log equals it iff it holds no events.", "quantifier": "all heaps, elements, ids and (for clones) streams of fresh ids", "why_tests_cant": "Tests compare a few elements; that nothing but ids matters is a statement about all contents, and confusion of empty traces needs a particular log.", "anchors": ["src/opyenxes/model/XEvent.py:54-63", "src/opyenxes/model/XTrace.py:4-26", "src/opyenxes/model/XTrace.py:59-66", "src/opyenxes/model/XLog.py:4-41"]}
{"id": "C74", "title": "Every event that is read gets an id of its own", "statement": "Whatever sequence of SAX events the XES handler accepts (also for documents that are no logs), each event in a log it made has an id drawn from uuid4 during the reading and no draw is used for two events; the same holds for all logs of an MXML file together. So ids are pairwise different if uuid4 does not repeat itself, and a log written to XES and read back has the same ids trace by trace (is equal to the log that was written) iff it holds no events.", "quantifier": "all sequences of SAX events, extension managers, streams of ids; all readable logs for the last part", "why_tests_cant": "Sharing of an event between two places only shows in odd documents; the claim is about all of them.", "anchors": ["src/opyenxes/data_in/XesXmlParser.py:74-237", "src/opyenxes/data_in/XMxmlParser.py:80-299", "src/opyenxes/model/XEvent.py:18-25", "src/opyenxes/id/XIDFactory.py:12-19"]}
{"id": "C75", "title": "A wrapper is a name for its event", "statement": "After any history of creating events, wrapping them (XExtendedEvent.wrap), calling setters on wrappers or on events, replacing attribute maps through a wrapper by new maps and cloning wrappers, every wrapper shows exactly the attributes of the event it stands for: a setter that succeeds is seen through all wrappers of the same event and through no other wrapper, one that raises changes nothing, the getters give what was set (resource, role and group in lower case, a transition stripped or decoded, an instance as the name), and a clone shows the same attributes at first but neither sees what is later done to the other. has_attributes of a wrapper tells whether the event has an attribute, and get_extensions gives the empty set. If uuid4 does not repeat itself a wrapper equals no wrapper but itself (not even another one of the same event), and its id is the id of no event.", "quantifier": "all histories of operations, all values given to setters, all clocks and streams of ids", "why_tests_cant": "Tests wrap one event; leaks between wrappers show only in histories with several wrappers and clones.", "anchors": ["src/opyenxes/extension/std/XExtendedEvent.py:18-32", "src/opyenxes/extension/std/XExtendedEvent.py:43-214", "src/opyenxes/extension/std/XExtendedEvent.py:216-258", "src/opyenxes/extension/std/XExtendedEvent.py:268-277", "src/opyenxes/model/XEvent.py:18-36"]}
{"id": "C76", "title": "A stopped timer shows a negative duration", "statement": "For every history of making, starting and stopping timers and all clock readings between one second and 2^33 seconds after 1970: a timer that runs shows the milliseconds since it was last started, or since the module was imported if it never was, up to a five-hundredth of a millisecond; a timer that was stopped shows, up to the same error and whatever the time of asking, the reading of the clock at the stop in seconds minus the reading at the start in milliseconds, which is negative as long as the stop lies before 999 times the start, and its text is that number of milliseconds. That it shows the time between start and stop is refuted. Timers do not affect each other.", "quantifier": "all histories of operations on any number of timers, all clock readings", "why_tests_cant": "Tests that time something check the running timer; the value after stop is wrong by the whole age of the epoch whatever the delays.", "anchors": ["src/opyenxes/utils/XTimer.py:15-41"]}
{"id": "C77", "title": "Messages of the library are always printed", "statement": "For every history of making loggers, setting listeners and logging: a message logged through a logger goes exactly once to the listener set last at this logger (the standard one at first, none if it was set to None), with importance DEBUG if none is given. The messages of the library itself go to standard output whatever listeners were set anywhere, so a caller that only sets listeners never receives one; that set_listener diverts them is refuted.", "quantifier": "all histories of loggers, listeners, messages", "why_tests_cant": "Absence of messages for all histories of listeners cannot be tested.", "anchors": ["src/opyenxes/log/XLogging.py:9-38", "src/opyenxes/log/XStdoutLoggingListener.py:5-15", "src/opyenxes/data_out/XesXmlSerializer.py:50", "src/opyenxes/data_out/XMxmlSerializer.py:48", "src/opyenxes/data_in/XMxmlParser.py:190-193"]}
{"id": "C78", "title": "Extensions only label what is read", "statement": "If the XES handler accepts a sequence of SAX events with one extension manager and with another one, the two logs are the same but for extensions: with the second manager every attribute, at any depth, has the first registered extension whose prefix stands before the first colon of its key. In a document with one log the log's extensions are those its declarations stand for, looked up by prefix if there is one (the URI is then not looked at) and by URI otherwise. For documents whose declarations have URIs and stand inside the log, the registered extensions do not decide whether reading succeeds or which exception is raised. Registering an extension under a new URI labels exactly the keys with its prefix that had no label; registering one under a known URI labels nothing.", "quantifier": "all sequences of SAX events, extension managers, extensions, keys, streams of ids", "why_tests_cant": "A relation between two readings of any document under any two managers; tests read one document with the standard extensions.", "anchors": ["src/opyenxes/data_in/XesXmlParser.py:118-133", "src/opyenxes/data_in/XesXmlParser.py:152-197", "src/opyenxes/extension/XExtensionManager.py:37-86", "example/Parse_log_with_new_extension.py:5-25"]}
{"id": "C79", "title": "A chart of activities per resource counts every event once", "statement": "The example that plots the activities done by people shows one bar for each different resource of the events of all logs (the text of the attribute Resource, empty if there is none), in the order in which the resources come first, each as long as the number of its events. No bar is empty or drawn twice and together they are as long as the number of events. There is no chart exactly if the text of some resource cannot be made, and the exception is that of the first such event. Logs that were written to files and read again give the same chart.", "quantifier": "all lists of logs, all logs and the logs read from their files", "why_tests_cant": "Counts over any number of logs of any size, and the order of the bars; the example is a script without tests.", "anchors": ["example/Number_of_activity_done_by_people.py:8-21", "src/opyenxes/classification/XEventAttributeClassifier.py:18-52"]}
{"id": "C80", "title": "Which logs a file can hold is told by their texts", "statement": "For a log of readable values the XES file can be written if and only if the characters of its keys, texts and printed floats and of the names, prefixes, URIs and keys of its extensions and classifiers are allowed in XML; integers, booleans, dates and ids never matter. If there are no line breaks and tabs in them the log comes back from the file with the same attributes, traces and events. If there are, it comes back with a blank for each tab and each line break (CR LF counting as one), provided its keys are still different then and its classifiers have none.", "quantifier": "all readable logs, extension managers and streams of ids", "why_tests_cant": "An equivalence over all texts and all nestings of attributes; tests use texts of letters.", "anchors": ["src/opyenxes/data_out/XesXmlSerializer.py:31-164", "src/opyenxes/utils/XTokenHelper.py:9-11", "src/opyenxes/model/XAttributeTimestamp.py:78-98", "src/opyenxes/data_in/XesXmlParser.py:98-218"]}
{"id": "C81", "title": "The random log is of the chosen shape, with every id once, and can be stored", "statement": "Whatever is chosen at random, the script that makes a random log makes a trace for each list of choices and in it an event for each list of options, with one attribute for each different option in the order of the first choices, of the class of that option and under its name. No id, of an event or in an attribute of type id, comes twice in it if the generator does not repeat ids. With the numbers of the script it has ten traces, three to seven events in each and one to four attributes in each event. The log can be written and the file holds the same traces and events.", "quantifier": "all choices of options, streams of ids, clocks and both kinds of platform", "why_tests_cant": "The script draws at random, so a run shows one of many logs.", "anchors": ["example/Create_random_log.py:11-46", "src/opyenxes/factory/XFactory.py:76-197", "src/opyenxes/model/XAttributeTimestamp.py:18-25", "src/opyenxes/model/XAttributeTimestamp.py:123-132"]}
{"id": "C82", "title": "The boundaries of a trace are right when found, and found only by luck", "statement": "A summary keeps time boundaries for every trace, in a dictionary keyed by the traces. The hash value of a trace is not determined by the trace: each call of hash may give another value. Whatever the values, get_trace_time_boundaries returns None or the first and last time stamp of a trace of the log with the same event ids, which are those of the trace asked for if events with the same id have the same time stamp. It returns boundaries if and only if the hash value of the question is one that was used for a trace of the log with these event ids, so None may be returned for a trace of the log.", "quantifier": "all logs and all hash values", "why_tests_cant": "With one object layout in memory the values happen to agree, with another they do not; a test sees one of them.", "anchors": ["src/opyenxes/info/XLogInfo.py:60-60", "src/opyenxes/info/XLogInfo.py:77-92", "src/opyenxes/info/XLogInfo.py:194-201", "src/opyenxes/model/XTrace.py:68-69", "src/opyenxes/model/XEvent.py:54-57"]}
{"id": "C83", "title": "Time stamps in milliseconds are those of the local clock, to the second", "statement": "On a machine with a fixed offset from UTC: set_value_millis gives a time stamp the naive local date-time of the number (exact for whole seconds and below 2^33 seconds, otherwise at most 15 microseconds off because of the division of doubles), and get_value_millis then returns the number rounded down to a whole second, as a float; a float that is a whole number is set like that number, a boolean like 1 or 0, any other float gives a date-time less than 16 microseconds away from it (less than one below 2^33 seconds), which can be in the next second; an infinity raises OverflowError and NaN ValueError; outside of the years 1 to 9999 and on the first day of the year 1 set_value_millis raises ValueError. The number got from any date-time but those of that day, set again, gives the date-time without microseconds and time zone. The number got from a naive date-time is its instant in local time; from a date-time with a time zone it is its instant if and only if that zone has the local offset. A time stamp made from an int has this int rounded down to a second, but at least 86400000 on Windows. One made from a date-time has this date-time, one made from a boolean is that of 1 or 0, and one made from anything else has no value, and asking for it raises AttributeError. The time stamp setter of the time extension stores the clock reading of every date-time, but raises ValueError for those of the first day of the year 1.", "quantifier": "all offsets below a day, whole numbers below 2^53, floats below 2^53 seconds, date-times", "why_tests_cant": "Tests run in one time zone and with few numbers, mostly whole seconds.", "anchors": ["src/opyenxes/model/XAttributeTimestamp.py:18-57", "src/opyenxes/model/XAttributeTimestamp.py:123-132", "src/opyenxes/extension/std/XTimeExtension.py:46-62"]}
{"id": "C84", "title": "Saving a loaded log changes nothing any more", "statement": "Take any XES log of readable values whose texts a file can hold, with classifiers that have names and keys without apostrophes. The log loaded from its file can be saved and loaded any number of times: every time the same attributes, traces, extensions, classifiers and globals come back, with new event ids, and every file has the same text. The first file also has this text if all time stamps have zones, globals have no nested attributes, the extensions are registered and no two adjacent keys of a classifier lack blanks; a time stamp without a zone changes the text once, and a classifier key with an apostrophe may still change on the second save.", "quantifier": "all such logs, any number of saves", "why_tests_cant": "Tests save and load once, so a loss that repeats on every round trip is not seen.", "anchors": ["src/opyenxes/data_out/XesXmlSerializer.py:40-164", "src/opyenxes/data_in/XesXmlParser.py:70-237", "src/opyenxes/utils/XTokenHelper.py:4-11"]}
{"id": "C85", "title": "Values of the wrong type are written without complaint", "statement": "The attribute classes do not check their values. A log can be written as XES if and only if every time stamp holds a date-time (otherwise AttributeError). The document can then be loaded if and only if every value can be converted from its text to the type of its attribute: a literal becomes str(v), an int attribute int(str(v)), a float attribute float(str(v)), an id UUID(str(v)), a boolean whether str(v) is true in any case. Then all attributes come back converted; otherwise loading raises. So True or None in an int attribute makes a file that cannot be loaded, and the number 1 in a boolean becomes False.", "quantifier": "all logs whose date-times, if any, are printable; all values", "why_tests_cant": "Tests write values of the right type only.", "anchors": ["src/opyenxes/data_out/XesXmlSerializer.py:120-164", "src/opyenxes/data_in/XesXmlParser.py:152-197", "src/opyenxes/model/XAttributeDiscrete.py:16-34", "src/opyenxes/model/XAttributeBoolean.py:16-34"]}
{"id": "C86", "title": "Saving to MXML again and again settles", "statement": "What was read from an MXML file that the library wrote can always be written and read again. The second time the events and their attributes are the same. If the log has a name that is not blank and no trace a blank name, the second time nothing changes at all except the event ids (which are new). Whatever the names, nothing changes after the third time. Earlier the description can change: a log with a blank name is described as \"process with id  \", then \"... None\", then \"... none\".", "quantifier": "all logs that can be written as MXML; all ids drawn", "why_tests_cant": "Tests write and read once at most.", "anchors": ["src/opyenxes/data_out/XMxmlSerializer.py:38-186", "src/opyenxes/data_in/XMxmlParser.py:96-299"]}
{"id": "C87", "title": "Converting MXML to XES loses nothing but one classifier", "statement": "Every log that XMxmlParser reads from an MXML document whose text stands where the format expects it can be written by XesXmlSerializer, and XesXmlParser reads it again, whatever the white space between the elements: the attributes of the log, of its traces and of their events are the same, in the same order, time stamps to the millisecond; so are the global attributes and the extensions; a given classifier finds the same event classes in both. Two things change: a Source without program becomes one named None, and the MXML Legacy Classifier, which has two keys, comes back with one key made of both, so by the classifiers of the logs themselves events of different classes are all of the same class afterwards.", "quantifier": "all MXML documents, any number of processes, instances, entries and data; any manager in which the five extensions are registered", "why_tests_cant": "two parsers and a writer have to be run in a row on arbitrary documents; samples rarely have several classifiers compared after conversion", "anchors": ["src/opyenxes/data_in/XMxmlParser.py:96-299", "src/opyenxes/data_out/XesXmlSerializer.py:40-164", "src/opyenxes/data_in/XesXmlParser.py:93-237", "src/opyenxes/utils/XTokenHelper.py", "src/opyenxes/classification/XEventAttributeClassifier.py:18-52"]}
{"id": "C88", "title": "Attributes of different types: when they can be ordered", "statement": "Two attributes with different keys can always be compared, whatever their types: the keys decide and both sides agree. With equal keys and values of the documented types, the types decide whether there is an answer: a list or container always answers, and nothing else can be compared with one (AttributeError); a boolean answers about everything else; whole numbers about numbers and booleans; floats about numbers, booleans and texts that are numbers (ValueError for other texts, OverflowError for too large numbers, TypeError for ids and time stamps); texts, ids and time stamps only about their own type, time stamps only if both or neither have a zone (otherwise TypeError, or AttributeError if an id is involved). The two sides need not agree: one may answer while the other raises; a boolean and a negative number each say they are the smaller one, and only then do those two disagree; a large number is greater than a float that says they are equal.", "quantifier": "all pairs of attributes of any two types, keys and values", "why_tests_cant": "64 pairs of types with unbounded values; only some values of a pair show the disagreement", "anchors": ["src/opyenxes/model/XAttribute.py:39-71", "src/opyenxes/utils/CompareUtils.py", "src/opyenxes/model/XAttributeBoolean.py:46-58", "src/opyenxes/model/XAttributeContinuous.py:46-59", "src/opyenxes/model/XAttributeID.py:45-57", "src/opyenxes/model/XAttributeTimestamp.py:59-73"]}
{"id": "C89", "title": "Which XES documents are read, and what is raised for the others", "statement": "A document whose elements stand where XES has them (a log with declarations, attributes and traces, traces with attributes and events, foreign elements anywhere) and whose dates are readable is read iff no element is faulty: no int, float or id with an unreadable value, no date with a zone out of range, no global without scope, no extension with neither URI nor a known prefix, or with no prefix and a URI that urlparse rejects. Otherwise the exception is that of the first faulty element in document order (ValueError, OverflowError, AttributeError, TypeError). With an unreadable date such a document is never read, and the exception is IndexError or that of a faulty element. Wherever the elements stand: a document that is read has no faulty element; whatever the handler is fed it raises only these five exceptions; events without any trace and traces without a log are never read. But not only well-placed documents are read: a trace inside a trace leaves None in the log where the outer trace should be.", "quantifier": "all documents, extension managers and parser states; arbitrary SAX sequences for the list of exceptions", "why_tests_cant": "documents of unbounded size and nesting; that no other exception can escape is a statement about all inputs", "anchors": ["src/opyenxes/data_in/XesXmlParser.py:93-237", "src/opyenxes/utils/XsDateTimeConversion.py:4-47"]}
{"id": "C90", "title": "Which MXML documents are read, and what is raised for the others", "statement": "A document whose elements stand where MXML has them (processes outside, instances in a process, entries in an instance, fields in an entry, attributes and sources anywhere but in a field, other elements anywhere) is read iff no Attribute lacks a name and no Timestamp has a zone out of range; otherwise the exception is that of the first of these (AttributeError, OverflowError). Wherever the elements stand: a document that is read has none of these faults; whatever the handler is fed it raises only AttributeError, TypeError or OverflowError; a Process inside a Process, a ProcessInstance inside a ProcessInstance and entries without any instance are never read. But not only well-placed documents are read: an AuditTrailEntry inside an AuditTrailEntry leaves None in the trace where the outer event should be.", "quantifier": "all documents and id draws; arbitrary SAX sequences and handler states for the list of exceptions", "why_tests_cant": "documents of unbounded size and nesting; that no other exception can escape is a statement about all inputs", "anchors": ["src/opyenxes/data_in/XMxmlParser.py:80-299", "src/opyenxes/utils/XsDateTimeConversion.py:4-47"]}
{"id": "C91", "title": "Which extension definitions are read, and what is raised for the others", "statement": "Whatever tags the parser of extension definitions is fed, it returns iff none of them is at fault, and otherwise raises the exception of the first faulty tag: an extension without name, prefix or URI (KeyError), with a URI that is no URL or whose opening fails otherwise than by URLError (that exception), a level or an attribute before any extension was reached (AttributeError), an attribute without key (KeyError), an alias inside an attribute element without mapping or name (KeyError). Hence a document whose root is a reachable extension and whose other tags are complete is always read and gives that extension. A directory gives None and leaves the aliases alone; a document gives None iff none of its extensions was reached.", "quantifier": "all tag sequences (documents or not), all behaviours of URL parsing and of the network", "why_tests_cant": "documents and network behaviour are unbounded; that no other exception escapes is a statement about all inputs", "anchors": ["src/opyenxes/extension/XExtensionParser.py:47-148"]}
{"id": "C92", "title": "Standard extension objects and their names", "statement": "Making any of the eight standard extensions always succeeds, whatever the random ids, the local time of the epoch and the names registered before. The object has on each level (log, trace, event, meta) exactly the keys of the standard's table, each once, with attributes that carry the extension (with its standard name, prefix and URI), have the class and initial value the table says and no children; all levels together give one attribute per key. No key belongs to two extensions, and the reader labels each key with the extension that defines it. Whichever extensions are made, in whatever order and after whatever registrations, each mapping (EN, DE, FR, ES, PT and any other) holds the tabulated names of their keys and for all other keys what it held before. Every key has an English name, which the global map gives and which is shown in a known language that has no name of its own for the key.", "quantifier": "all random draws, local times, earlier registrations, orders of construction, mappings and keys", "why_tests_cant": "the result depends on what was registered before and on the order in which the singletons are first used", "anchors": ["src/opyenxes/extension/std/XConceptExtension.py:21-34", "src/opyenxes/extension/std/XCostExtension.py:113-125", "src/opyenxes/extension/std/XIdentityExtension.py:18-27", "src/opyenxes/extension/std/XTimeExtension.py:21-29"]}
{"id": "C93", "title": "Which logs are written as MXML, what is written, and what is raised otherwise", "statement": "For every log, XMxmlSerializer either writes exactly the document of the specification or raises the first fault. The document has a Source, and a Process with one ProcessInstance per trace (also without events) and one AuditTrailEntry per event, in order; an entry has the name, the transition (trimmed, in lower case if it is a standard one, else unknown with the original as unknownType, complete if there is none), the first of org:resource, org:role and org:group as originator, and str() of the time; ids are the names or None/none, model references are attributes of the elements and the only data written. Faults: lists or containers under the keys that are read, a transition that is no text, a model reference with children (AttributeError); the name of a trace or log that is no text (TypeError); and after the tree was built, references and true values that are no texts (TypeError). Nothing else is raised, and a log with texts under the keys MXML knows is always written.", "quantifier": "all logs with attribute values and classes of any type under any key", "why_tests_cant": "values of the wrong type fail in two phases and only if they count as true; the set of logs is unbounded", "anchors": ["src/opyenxes/data_out/XMxmlSerializer.py:38-186"]}
{"id": "C94", "title": "The XES document written for a log", "statement": "If every value has the type of its class (times with a zone of whole minutes, identifiers of 128 bits), XesXmlSerializer writes a log element with xes.version 1.0, xes.features nested-attributes and openxes.version 1.0RC7, and in it, in this order: the extensions with name, prefix and URI; the global trace and event attributes, each only if there are any; the classifiers with their keys, those with a space in quotes and without empty ones; the attributes of the log; the traces, each with its attributes and then its events. An attribute is an element tagged string, int, float, boolean, id or date with key and value and its nested attributes inside, or list or container without a value and with its members inside. Whole numbers are decimal digits without leading zeros, booleans true or false, identifiers 32 hexadecimal capitals in groups of 8-4-4-4-12, times YYYY-MM-DDThh:mm:ss.mmm followed by Z without a zone, by the offset with one, and (unlike what one expects) by nothing at all in UTC.", "quantifier": "all logs whose values have the type of their class", "why_tests_cant": "logs nest without bound and numbers, identifiers and dates are too many to enumerate", "anchors": ["src/opyenxes/data_out/XesXmlSerializer.py:40-164", "src/opyenxes/model/XAttributeTimestamp.py:78-98", "src/opyenxes/id/XID.py:66-67", "src/opyenxes/utils/XTokenHelper.py:9-11"]}
{"id": "C95", "title": "What the global name map facility lists and shows", "statement": "The names of the available mappings are EN and the names that were asked for or registered under, each once, in the order in which they were first met; mappings made outside the facility are not listed. The available mappings are different objects, one for each of these names: the one that carries the name and that asking for the name gives; the standard mapping is the one for EN. The text of a mapping is 'Attribute name map: ', its name, and a line 'key -> alias' for each key registered under the name, in the order of first registration, with the alias last registered; that of the facility has the texts of all mappings in the order of their names, separated by blank lines.", "quantifier": "all histories of asking for mappings, making mappings elsewhere and registering aliases (the texts: of calls of the facility), for arbitrary names, keys and aliases", "why_tests_cant": "histories have any length, and whether a name is met for the first time depends on all of it", "anchors": ["src/opyenxes/info/XGlobalAttributeNameMap.py:22-72", "src/opyenxes/info/XGlobalAttributeNameMap.py:150-156", "src/opyenxes/info/XAttributeNameMap.py:53-63"]}
{"id": "C96", "title": "Event classes and sets of them compared", "statement": "Two event classes compare like their identities by code points, whatever their numbers and sizes: <, <=, >, >=, ==, != and compare_to agree with one total order of the identities, and equal classes have equal hashes. Two sets of event classes derived from logs are equal exactly if their classifiers are; an event in both logs then has equal classes in both sets. Equal sets may have different classes, so that equality of sets does not mean equality of their contents. The length of a set is the number of different identities of the events of its log.", "quantifier": "all event classes; all classifiers and logs from which sets can be derived", "why_tests_cant": "needs all identities, and all logs with all their events", "anchors": ["src/opyenxes/classification/XEventClass.py:62-99", "src/opyenxes/classification/XEventClasses.py:23-37", "src/opyenxes/classification/XEventClasses.py:139-151"]}
{"id": "C97", "title": "Tests of the platform", "statement": "Each answer of one XRuntimeUtils object is about the name of the platform at the time of its first test, however that name changes later: Windows iff it begins with 'win32', macOS iff with 'darwin', Linux iff with 'linux', Unix iff with 'freebsd', 'linux' or 'darwin'. Windows, macOS and Linux exclude each other, Windows and Unix too; macOS and Linux are Unix.", "quantifier": "all histories of tests, with arbitrary platform names at each of them", "why_tests_cant": "platform names are arbitrary texts and a test run sees the one of its machine", "anchors": ["src/opyenxes/utils/XRuntimeUtils.py:14-58"]}
{"id": "C98", "title": "Mining, filtering, clustering and storing fit together", "statement": "Which net the alpha algorithm mines depends only on the set of variants of the log: logs with the same variants, in any order and number and under any two iteration orders of Python's sets, give nets with the same events, start and end events, relations, pairs and places, and if one run succeeds so does the other. So a log and its log filtered by the same classifier give the same net or fail alike. The net and the vectors for clustering of a log read back from a file are those of the log written, for every classifier that does not look at time stamps without a zone; its filtered log and its clusters have the same traces with the same contents.", "quantifier": "all lists of variants, all pairs of set iteration orders, all logs and classifiers; for storing all logs of readable values under their keys", "why_tests_cant": "set iteration order changes from run to run with the hash seed; equality of nets over all logs and orders cannot be sampled", "anchors": ["example/AlphaAlgorithm.py:19-221", "example/filter_compress_log.py", "example/Cluster_a_log.py", "src/opyenxes/out/XesXmlSerializer.py", "src/opyenxes/data_in/XesXmlParser.py"]}
{"id": "C99", "title": "The text of an attribute", "statement": "If the values have the type of their class, str() of an attribute is its value as written to files, and for a list or container of any depth the members as 'key:text' in their order, with commas between and brackets around. It fails only with AttributeError, and exactly if the attribute or a member at any depth is a time stamp without a date-time. The attribute's own key, extensions and nested attributes do not show, nor whether it is a list or a container. If the members' keys have no colons and commas and their texts no commas, the text tells their number, order, keys and texts; in general it does not.", "quantifier": "all attributes with collections nested to any depth", "why_tests_cant": "attribute trees are unbounded, and telling two lists apart is about all pairs of lists", "anchors": ["src/opyenxes/model/XAttributeCollection.py:37-51", "src/opyenxes/model/XAttributeLiteral.py:60-61", "src/opyenxes/model/XAttributeDiscrete.py:60-61", "src/opyenxes/model/XAttributeContinuous.py:61-62", "src/opyenxes/model/XAttributeBoolean.py:60-61", "src/opyenxes/model/XAttributeID.py:59-60", "src/opyenxes/model/XAttributeTimestamp.py:78-98"]}
{"id": "C100", "title": "Lines, cells and titles of CSV files", "statement": "The CSV converter works on the lines of the file, each with its line end, and on their cells: the texts between semicolons. A title with a year that is made of units of time (dd, MM, yyyy, HH, mm) with other text between them becomes the date format with %d, %m, %Y, %H, %M in their places, without line ends behind it; with no text between them this fails. The line end belongs to the last cell of a line: a text in the last column is stored with it, so the value is not the text of the cell.", "quantifier": "all texts, all lists of cells, all date formats made of units and separators", "why_tests_cant": "the example file has a number in the last column, which hides the line end, and one date format", "anchors": ["example/Csv_to_xes_file.py:19-29", "example/Csv_to_xes_file.py:32-59"]}
{"id": "C101", "title": "Identifiers are objects that can be shared", "statement": "In any program an identifier shows the uuid last set on it, and each event and ID attribute holds the identifier last set on it, whatever else happens. A new event made without an identifier, and a clone of an event, get a freshly drawn uuid in an identifier that nothing else holds; a clone of an ID attribute gets the same uuid in such an identifier. Events are equal exactly if their identifiers show the same uuid, be they one object or two, and then they hash alike; events that hold the same identifier always are. When identifiers are only ever drawn, events are equal only if they hold the same one. The hash of an event is not fixed: setting the uuid of an identifier through another holder changes it.", "quantifier": "all programs of calls creating, cloning, setting and parsing identifiers for any number of events and attributes; all sequences of drawn uuids", "why_tests_cant": "sharing needs two holders and a later call on one of them; tests look at one event at a time", "anchors": ["src/opyenxes/id/XID.py:12-51", "src/opyenxes/id/XID.py:69-81", "src/opyenxes/id/XIDFactory.py:12-20", "src/opyenxes/model/XEvent.py:18-63", "src/opyenxes/model/XAttributeID.py:15-43"]}
{"id": "C102", "title": "The lines of the written files", "statement": "An XES or MXML file is the XML declaration, the comment lines of the writer, and the element tree of the log, each element with nothing in it in one line, any other with its start tag and its end tag in lines of their own (or in one line if it holds only text) and its content between them, with one tab for each level; & < > and double quotes are written as references. If no text of the log has a line break or tab, these are exactly the lines of the XES file; with a line break in a value an element takes more lines. In any case exactly as many lines are a bare start tag of a trace as there are traces, and of an event as there are events: no text in a log can counterfeit one.", "quantifier": "all logs that can be written, with any texts", "why_tests_cant": "injection through texts needs the right text in the right place; there are infinitely many texts", "anchors": ["src/opyenxes/data_out/XesXmlSerializer.py:75-100", "src/opyenxes/data_out/XMxmlSerializer.py:121-133"]}
{"id": "C103", "title": "Types of attributes and their prototypes", "statement": "The type of an attribute is its class and its type string the name of that class (LITERAL, DISCRETE, CONTINUOUS, BOOLEAN, TIMESTAMP, ID, LIST, CONTAINER), so two attributes have the same type string exactly if they are of the same class; for other objects both raise TypeError. The prototype of a text, number, boolean or id attribute has its class, key and extension, the default value of the class and nothing nested; it does not depend on anything else, so the prototype of a prototype is one of the attribute. For time stamps, lists and containers there is none: AttributeError. Against its documentation a prototype differs from the attribute not only in the value: nested attributes are lost.", "quantifier": "all attributes with all values, extensions and nested attributes", "why_tests_cant": "independence from the value is about all pairs of values", "anchors": ["src/opyenxes/utils/XAttributeUtils.py:28-55", "src/opyenxes/utils/XAttributeUtils.py:57-84", "src/opyenxes/utils/XAttributeUtils.py:86-116"]}
{"id": "C104", "title": "When two logs have the same file", "statement": "The written text tells the document: two XES documents of logs have the same file exactly if they are the same tree, and two MXML documents exactly if they are the same up to CR and LF in element texts. So no key, value or name in a log can make up markup of another. For logs whose values fit their classes this says what an XES file holds: two logs have the same file exactly if they have the same extensions in the same order, classifiers of the same names and the same key texts, and pairwise the same globals, log, trace and event attributes in order, where attributes are the same if class, key, value and nested attributes are (for collections: class, key and members). Date-times count up to milliseconds and with their offset, and one without a zone is not the same as one in UTC. Identifiers of events, extensions of attributes, names under which attributes are kept, values and nested attributes of collections do not count. Classifiers with different keys may have the same file. The same holds for the bytes of two saved files, plain in a lossless encoding or, for compressed files, when unpacked (compressed bytes also hold the time and name of the file).", "quantifier": "all pairs of logs that can be written, with any texts", "why_tests_cant": "injectivity is about all pairs of logs; one pair with the same file in a wrong printer is hard to find by testing", "anchors": ["src/opyenxes/data_out/XesXmlSerializer.py:40-103", "src/opyenxes/data_out/XesXmlSerializer.py:105-164", "src/opyenxes/data_out/XMxmlSerializer.py:38-136", "src/opyenxes/model/XAttributeTimestamp.py:78-98"]}
{"id": "C105", "title": "When two logs have the same MXML file", "statement": "Two logs that can be written as MXML have the same file exactly if these are the same: the name and model reference of the log; the number and order of the traces; of each trace its name (one without a name being the same as one named None) and model reference; the number and order of its events; of each event its name (none being the same as an empty one), its type (one of the twelve standard types up to letter case and surrounding white space, or the exact text of another one; none being the same as complete), its originator (resource, else role, else group, whichever it is), str() of its time stamp, and the model references of these; texts of elements up to CR and LF. The text of a time stamp tells it to the microsecond with the offset of its zone. Everything else, that is all other attributes, classes, extensions, globals and classifiers and the identifiers of events, is lost; so the file does not tell which traces had names and which events had resources. The same holds for the bytes of two saved files, plain in a lossless encoding or, for compressed files, when unpacked.", "quantifier": "all pairs of logs that can be written as MXML, with values of any type", "why_tests_cant": "which logs share a file is a statement about all pairs of logs; tests compare a few", "anchors": ["src/opyenxes/data_out/XMxmlSerializer.py:38-136", "src/opyenxes/data_out/XMxmlSerializer.py:138-186"]}
{"id": "C106", "title": "What the net of the alpha algorithm can replay", "statement": "Playing the token game on the mined net, from one token in its first place to one token in its last place and none left over, replays exactly the sequences of activities of the log that hold exactly one start activity and exactly one end activity and in which, for every maximal pair of sets (A, B), there are at no time more events of B than of A, and as many in the end. If nothing in the log precedes a start or comes after an end, no two activities follow each other both ways, activities with a common successor have the same successors, and neither the successors nor the predecessors of an activity follow one another, then the net replays exactly the walks along direct successions from a start to an end, among them all traces of the log. In general the net need not replay the traces of the log it is made of, and it may replay traces the log does not have.", "quantifier": "all logs, all sequences of activities, all iteration orders of the sets and orders of the places", "why_tests_cant": "replaying a few traces says nothing about all sequences a net admits, nor about all logs", "anchors": ["example/AlphaAlgorithm.py:86-104", "example/AlphaAlgorithm.py:120-191"]}
{"id": "C107", "title": "Time stamps in milliseconds where the clock is put forward and back", "statement": "On a machine whose offset from UTC changes: set_value_millis gives a time stamp the reading of the local clock at the instant, and get_value_millis then returns an instant with the same reading, which is the number set, rounded down to a second, if the clock has that reading only once. Two instants with the same reading give the same time stamp, so one of the two numbers is lost; where the clock is put back a later number gives an earlier time stamp. A date-time that the clock shows comes back, without microseconds and zone, from its number; one that is skipped comes back from no number, and the time stamp setter of the time extension stores another date-time for it. With one offset all this is C83.", "quantifier": "all zones with offsets below a day, all functions mktime that find an instant of a reading if there is one, numbers and date-times away from the ends of the years 1 to 9999", "why_tests_cant": "needs every time zone and instant; tests run in one zone, mostly UTC", "anchors": ["src/opyenxes/model/XAttributeTimestamp.py:get_value_millis", "src/opyenxes/model/XAttributeTimestamp.py:set_value_millis", "src/opyenxes/extension/std/XTimeExtension.py:assign_timestamp"]}
{"id": "C108", "title": "Event classes are live objects until indices are harmonized", "statement": "Over every history of registering, harmonizing and of users who call set_size and increment_size on event classes they hold: an event class taken from a set stays the one get_by_identity returns until harmonize_indices is called, and its size is that last set plus everything registered or added since; the first registration of an identity makes a new class of size 1 whose index is the number of classes; harmonize_indices puts a new class of the same size in the place of each, numbered in the order of the identities, and leaves the old objects as they are and outside of the set; a class that is not in the set never comes into it and counts nothing that is registered; identity and index of an event class never change. If nobody but the set changes its classes, it behaves like the map of C16 to C18.", "quantifier": "all histories of calls, identities, indices and sizes", "why_tests_cant": "needs all interleavings of the set and of holders of its classes; tests look at one set after one log", "anchors": ["src/opyenxes/classification/XEventClasses.py:register", "src/opyenxes/classification/XEventClasses.py:harmonize_indices", "src/opyenxes/classification/XEventClasses.py:get_by_identity", "src/opyenxes/classification/XEventClass.py:set_size", "src/opyenxes/classification/XEventClass.py:increment_size"]}
{"id": "C109", "title": "Classifiers renamed after a summary was made are lost in it", "statement": "While no classifier changes, get_event_classes of a log summary answers exactly for classifiers with the name and keys of one that the summary was made for, with the classes of the last such one. After set_name, or a change of the list that get_defining_attribute_keys gives out, there is an answer exactly if some key of the summary's dictionary had, when the summary was made, the hash value the classifier has now, and is this object or has now the same name and keys: so a renamed classifier is not found unless hash values collide, and is found again with its old name. XLogInfoFactory.create_log_info still returns the summary the log keeps for the same classifier object, even when get_event_classes() of it has become None.", "quantifier": "all hash functions, classifiers, changes and summaries", "why_tests_cant": "needs every change of shared objects between making and asking, and every hash function; tests do not rename classifiers", "anchors": ["src/opyenxes/classification/XEventAttributeClassifier.py:set_name", "src/opyenxes/classification/XEventAttributeClassifier.py:__hash__", "src/opyenxes/info/XLogInfo.py:get_event_classes", "src/opyenxes/info/XLogInfoFactory.py:create_log_info", "src/opyenxes/model/XLog.py:get_info"]}
{"id": "C110", "title": "Programs that change the registries", "statement": "Whatever parsers and factories a program makes, registers or makes the default, the four parsers of the library stay available, each object is listed once and nothing unregistered is listed; the defaults are the ones set last. A parser of the library builds its logs with the factory that is the default when parse is called, not the one it was constructed with, and leaves the file closed whether it succeeds or fails. As long as no parser of the program's own takes the file, XUniversalParser.parse gives what the format of the file's ending gives, in any order of the set and with any number of further instances registered; a file with another ending is refused untouched. With arbitrary parsers the result is that of the first one which takes the file and succeeds, after those before it failed on the file as the previous one left it; the only error is that no parser was found. With a parser of the program's own for a known ending the outcome depends on the order of the set.", "quantifier": "all histories of registrations, parsers of the program's own, orders of the set, files and formats' outcomes", "why_tests_cant": "needs every history of registrations and every order in which a set may be walked; tests use the initial registries", "anchors": ["src/opyenxes/data_in/XUniversalParser.py:parse", "src/opyenxes/data_in/XParserRegistry.py:__init__", "src/opyenxes/data_out/XSerializerRegistry.py:__init__", "src/opyenxes/factory/XFactoryRegistry.py:__init__", "src/opyenxes/data_in/XesXmlParser.py:__init__", "src/opyenxes/data_in/XMxmlParser.py:__init__", "src/opyenxes/utils/XRegistry.py:register", "src/opyenxes/utils/XRegistry.py:set_current_default"]}
{"id": "C111", "title": "What a saved net tells", "statement": "Nets mined from any logs whose texts are the same have the same activities, the same first and last activities and the same places, in whatever orders the sets were walked, and replay the same traces, provided that no activity's name contains a double quote. Names are not escaped, so without that condition two different nets may have the same text. Saving a net changes only the file of the given name with .tpn appended; the file then holds the encoded text, or is empty when the encoding has no bytes for the text, in which case saving raises. Two nets saved with the same bytes are thus the same net.", "quantifier": "all logs, orders of the sets, names, encodings, disks and traces", "why_tests_cant": "needs all pairs of logs and every order of every set to know that no two nets share a text", "anchors": ["example/AlphaAlgorithm.py:save", "example/AlphaAlgorithm.py:__str__", "example/AlphaAlgorithm.py:_generate_text"]}
{"id": "C112", "title": "Which changes to a trace a mined net cannot see", "statement": "In a trace that a mined net replays, neighbours may change places unless the first causes the second in the log, any number of times; activities with the same predecessors and successors in the log, both or neither first and both or neither last, may be exchanged; an activity that somewhere follows itself and is neither first nor last may be added or left out anywhere. What is caused by something in the log comes after one of its causes, and what causes something comes before one of its effects, if neither follows itself. Logs with the same activities, first and last activities and direct successions give nets that replay the same traces. A replayed trace need not begin with a start activity.", "quantifier": "all logs, orders of the sets and of the places, and traces", "why_tests_cant": "needs all traces that a net replays, and all logs", "anchors": ["example/AlphaAlgorithm.py:_generate_footprint", "example/AlphaAlgorithm.py:_build_pairs", "example/AlphaAlgorithm.py:_generate_places"]}
{"id": "C113", "title": "Anonymising fits together with filtering, mining, clustering and storing", "statement": "Anonymising a log twice is anonymising it once. For classifiers that do not look at resources, filtering an anonymous log gives the anonymous filtered log or fails as filtering the log does, the net and the vectors for clustering are those of the log, and the clusters are the anonymous clusters. The chart of activities per resource of anonymous logs with textual resources has no bars but UNKNOWN and the empty name. If the resources are texts, the anonymous log can be stored and loaded if the log can; but a resource that is a whole number or an id is overwritten by the text as well and makes a file that cannot be loaded, and one that is a time stamp makes the serializer fail.", "quantifier": "all logs, classifiers, cluster predictions and orders of sets", "why_tests_cant": "needs all logs, all classifiers and all clusterings", "anchors": ["example/Anonymize_a_log.py", "example/filter_compress_log.py", "example/Cluster_a_log.py", "example/Number_of_activity_done_by_people.py", "src/opyenxes/data_out/XesXmlSerializer.py"]}
{"id": "C114", "title": "Anonymising a clone anonymises the log", "statement": "On objects, which several elements may share, the anonymiser changes exactly the values of the resource objects among the globals and the attributes of traces and events: no other object changes, and the log has the same structure. Anonymising again changes no object. Of any other log only the objects that both have change; if the other log has no others, it is anonymous, too. It works if all of these are attributes and none of the resources is a list or a container, and fails with an AttributeError otherwise. As clones have the same attribute objects, anonymising a clone of a log does to all objects what anonymising the log does: so nobody can clone a log, make the clone anonymous and still have the names in the log. The anonymiser on trees gives the same as the one on objects, or fails with the same exception, if no resource that is looked at is nested in an attribute or is an attribute of the log; and it may give another log if one is.", "quantifier": "all heaps and logs in them, with any sharing", "why_tests_cant": "needs all ways to share objects", "anchors": ["example/Anonymize_a_log.py", "src/opyenxes/model/XLog.py:clone", "src/opyenxes/model/XTrace.py:clone", "src/opyenxes/model/XEvent.py:clone"]}

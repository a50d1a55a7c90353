{"id": "C01", "title": "Lexing always terminates with one closing token", "statement": "Reading all tokens of any byte string with NewLexer/HasNext/Next terminates; the token sequence ends in exactly one EOF or ERROR token, no token of these two types occurs earlier, and HasNext is true before that token and false after it (unless Next panics, see C02).", "quantifier": "every byte string (of any length representable as a Go slice)", "why_tests_cant": "Termination and the shape of the token sequence have to hold for every possible server response, including malformed ones; the lexer steps its position backwards at the end of input, so progress is not obvious.", "anchors": ["token/lexer.go: Lexer.Next, Lexer.HasNext, lexStart, lexAlphaNumeric, lexBinaryData, lexDigit, lexNumber, Lexer.backup"]}
{"id": "C02", "title": "When lexing can panic", "statement": "Lexing panics only if the input ends in a '@' standing where a new data element starts, or if it contains a binary header @n@ whose length n overflows a 64 bit position; every other input, in particular every input that ends in a delimiter and whose binary lengths stay below 2^62, is lexed without a panic. Both panics really occur.", "quantifier": "every byte string shorter than 2^62 bytes", "why_tests_cant": "The panic needs a precise combination of end of input, backup and integer overflow; a claim of absence ranges over all inputs.", "anchors": ["token/lexer.go: lexBinaryData, Lexer.peek, Lexer.backup, Lexer.next"]}
{"id": "C03", "title": "Lexing loses no bytes", "statement": "The values of the tokens in order, each reported at its true offset, form a contiguous prefix of the input; if the lexer ends with EOF the values add up to the whole input, except when an unescaped NUL byte stands where a token starts: then EOF carries that byte and everything after it is silently dropped.", "quantifier": "every byte string", "why_tests_cant": "Losslessness is a statement about all inputs and all token boundaries.", "anchors": ["token/lexer.go: Lexer.emit, lexStart"]}
{"id": "C04", "title": "Binary data is opaque to the lexer", "statement": "A data element @n@ followed by n bytes and a delimiter is delivered as one BINARY_DATA token with exactly these bytes, whatever the n payload bytes are (delimiters, escapes, NUL, nested binary headers).", "quantifier": "every payload of every length and every context before and after it", "why_tests_cant": "Injection through payload bytes needs all payloads.", "anchors": ["token/lexer.go: lexBinaryData"]}
{"id": "C05", "title": "Delimiters inside tokens are always escaped", "statement": "No token other than BINARY_DATA, ERROR and the delimiters themselves contains an unescaped '+', ':' or apostrophe, and each separator token is the single corresponding byte; hence the segment/element structure seen by the parser is exactly the unescaped delimiters outside binary data.", "quantifier": "every byte string and every token produced from it", "why_tests_cant": "Structural injection must be excluded for all inputs.", "anchors": ["token/lexer.go: lexStart, lexAlphaNumeric, lexDigit, lexNumber, isDelimiter"]}
{"id": "C06", "title": "Character set conversion round trip", "statement": "ToUTF8 is total and ToISO8859_1(ToUTF8(b)) = b for every byte string b; ToUTF8(ToISO8859_1(s)) = s for every string s whose characters are all at most U+00FF; ToISO8859_1 panics for every other string.", "quantifier": "every byte string / every Go string", "why_tests_cant": "Holds for all strings; the panic set must be described exactly.", "anchors": ["charset/convert.go: ToUTF8, ToISO8859_1"]}
{"id": "C07", "title": "Escaping is reversible and hides all syntax characters", "statement": "Marshaling a text value puts '?' before every '?', '@', apostrophe, ':' and '+', unescaping gives the original back for every value, two different values never marshal to the same bytes, and the marshaled form has no unescaped delimiter.", "quantifier": "every text value", "why_tests_cant": "An algebraic law over all strings, with adjacent escapes as the critical cases.", "anchors": ["element/data_element.go: escape, unescape, AlphaNumericDataElement.MarshalHBCI/UnmarshalHBCI, TextDataElement"]}
{"id": "C08", "title": "Text elements survive marshal and unmarshal", "statement": "For every value made of Latin-1 characters, unmarshaling the marshaled bytes of an AlphaNumeric, Text or Identification element yields the original value; for every other value marshaling panics instead of sending something else.", "quantifier": "every Go string", "why_tests_cant": "Round trip over all strings, through escaping and charset conversion.", "anchors": ["element/data_element.go: NewAlphaNumeric, NewText, NewIdentification, MarshalHBCI, UnmarshalHBCI", "charset/convert.go"]}
{"id": "C09", "title": "Numbers survive marshal and unmarshal", "statement": "Unmarshaling the marshaled bytes of a Number or Digit element yields the original integer; a Digit element of width w renders a non-negative number below 10^w as exactly w digits; no two numbers share a rendering.", "quantifier": "every 64 bit integer and every width", "why_tests_cant": "All integers, all widths, sign and padding boundaries.", "anchors": ["element/data_element.go: NumberDataElement, DigitDataElement"]}
{"id": "C10", "title": "Binary elements survive marshal and unmarshal", "statement": "Unmarshaling the marshaled bytes of a Binary element yields the original byte string, whatever bytes it has, also with arbitrary trailing bytes after it.", "quantifier": "every byte string", "why_tests_cant": "All payloads, including '@', digits and the empty string.", "anchors": ["element/data_element.go: BinaryDataElement.MarshalHBCI/UnmarshalHBCI"]}
{"id": "C11", "title": "Binary unmarshaling never invents data", "statement": "If unmarshaling a Binary element succeeds, every byte of the result was present in the input. (False: a truncated element is filled up with zero bytes; it holds exactly when at least the announced number of bytes follows.)", "quantifier": "every byte string given to UnmarshalHBCI", "why_tests_cant": "Needs every truncation point of every message.", "anchors": ["element/data_element.go: BinaryDataElement.UnmarshalHBCI"]}
{"id": "C12", "title": "Dates, times and booleans survive marshal and unmarshal", "statement": "Every calendar date of years 0..9999, every time of day and both booleans are restored exactly by unmarshaling their marshaled bytes, and unmarshaling accepts no string that is not the rendering of a real calendar date / time of day (for times the last part is false: a fraction of a second may follow and is ignored; nothing else is accepted).", "quantifier": "every calendar date, time of day and boolean; every byte string given to unmarshal", "why_tests_cant": "Calendar arithmetic with leap years over the whole range.", "anchors": ["element/data_element.go: DateDataElement, TimeDataElement, BooleanDataElement"]}
{"id": "C13", "title": "Data element groups are split back into their components", "statement": "Marshaling a group and extracting its elements gives back the marshaled components (trailing empty ones cut off), for all component contents - provided the last non-empty component does not end in an escaped ':' and no escaped '+' or apostrophe occurs. Both provisos are needed: without them the group is rejected or a component is altered.", "quantifier": "every list of text, number, binary or absent components", "why_tests_cant": "Needs all contents of all components; the failures hide in trimming and terminator detection.", "anchors": ["element/data_element.go: elementGroup.MarshalHBCI", "element/element_extractor.go: ExtractElements"]}
{"id": "C14", "title": "Segments are split back into their data elements", "statement": "Marshaling a segment and extracting its elements gives back header and data elements byte for byte (trailing absent ones cut off), for every list of data elements whose last present element does not end in '+'.", "quantifier": "every list of data elements, present or absent", "why_tests_cant": "Injection freedom over all user supplied values.", "anchors": ["segment/segment.go: segment.MarshalHBCI", "segment/element_extractor.go: ExtractElements"]}
{"id": "C15", "title": "A segment always ends where its marshaled form ends", "statement": "The bytes produced by marshaling one segment contain exactly one unescaped, non-binary segment end marker, the last byte. (False if the last data element ends in '+': the escape character then swallows the terminator and the following segment is merged into this one.)", "quantifier": "every segment and every following segment", "why_tests_cant": "Needs the interplay of escaping and trimming for all values, e.g. PINs.", "anchors": ["segment/segment.go: segment.MarshalHBCI", "element/pin.go: NewCustomSignature"]}
{"id": "C16", "title": "A message is split back into its segments", "statement": "Extracting the segments of a concatenation of marshaled segments returns exactly these segments in order; on any input, successful extraction returns contiguous pieces each ending in the segment terminator, so that joined they are a prefix of the message.", "quantifier": "every list of segments; every byte string", "why_tests_cant": "All messages of all sizes.", "anchors": ["message/segment_extractor.go: SegmentExtractor.Extract, Segments"]}
{"id": "C17", "title": "Looking up segments by ID", "statement": "FindSegments(id) returns exactly the segments whose ID is id, in message order. FindSegment(id) returns the first segment that starts with the bytes of id, which can be a segment with a different, longer ID; it is the first with that ID whenever no ID in the message properly extends id.", "quantifier": "every message and every id", "why_tests_cant": "Quantifies over all messages; prefix collisions depend on bank specific segments.", "anchors": ["message/segment_extractor.go: FindSegment, FindSegments", "transport/transport.go: IsEncrypted"]}
{"id": "C18", "title": "The size announced in the message header is the real size", "statement": "For every message whose header already carries a size field, the number in the message header produced by MarshalHBCI equals the number of bytes MarshalHBCI returns, as long as it has at most 12 digits.", "quantifier": "every message, signed or not, of any number of segments", "why_tests_cant": "The header contains its own size, a fixpoint that must hold for all contents.", "anchors": ["message/message.go: SetSize, MarshalHBCI", "segment/message_header.go: SetSize"]}
{"id": "C19", "title": "Segments are numbered consecutively", "statement": "After SetSegmentPositions, and therefore in every signed message, the segments in transmission order carry the positions 1,2,...,n.", "quantifier": "every message and every number of segments", "why_tests_cant": "All segment lists, including absent (nil) entries.", "anchors": ["message/message.go: SetSegmentPositions, Sign"]}
{"id": "C20", "title": "Marshaling a message is stable", "statement": "MarshalHBCI returns the same bytes on every call; changes of message number or header after the first call do not change the bytes sent. A message number that is set before it is the one in the message header, and setting it changes nothing else; it panics on a message without a header.", "quantifier": "every message and every sequence of modifications and marshalings", "why_tests_cant": "A history property over call sequences.", "anchors": ["message/message.go: BasicMessage.MarshalHBCI, SetMessageNumber"]}
{"id": "C21", "title": "The PIN/TAN envelope carries the message unchanged", "statement": "The data put into the encrypted data segment of a PIN/TAN message is exactly signature header + segments + signature end, a receiver extracts exactly these bytes from the transmitted message, and nothing is ever encrypted or sent with an empty PIN.", "quantifier": "every message content and every PIN", "why_tests_cant": "Round trip through binary framing, lexing and extraction for all contents.", "anchors": ["message/message.go: Encrypt", "message/crypto.go: PinTanCryptoProvider.Encrypt/Decrypt", "message/encryption.go: EncryptedMessage.Decrypt", "segment/encrypted_data_unmarshaler.go"]}
{"id": "C22", "title": "Segment headers survive marshal and unmarshal", "statement": "Unmarshaling a marshaled segment header yields the same ID, position, version and reference (or absence of one).", "quantifier": "every ID of letters and digits, every position, version and reference", "why_tests_cant": "All header values.", "anchors": ["element/segment_header.go: SegmentHeader", "element/element_extractor.go"]}
{"id": "C23", "title": "All acknowledgements of a response are delivered", "statement": "Acknowledgements() of a decrypted response lists the message acknowledgements followed by all segment acknowledgements in message order, none lost, none duplicated; an acknowledgement is never at the same time an error, a warning and a success.", "quantifier": "every response and every integer code", "why_tests_cant": "All responses and all codes.", "anchors": ["message/decryption.go: NewDecryptedMessage, Acknowledgements", "domain/acknowledgement.go: IsError, IsWarning, IsSuccess"]}
{"id": "C24", "title": "Message numbers within a dialog count up from 1", "statement": "Within one initialised dialog (from init to the next init) the requests sent to the bank carry the message numbers 1,2,3,... without gap or repetition, and all but the first carry the dialog ID assigned by the bank in the answer to the first.", "quantifier": "every sequence of API calls and every behaviour of the bank", "why_tests_cant": "A history property over all call sequences and all bank responses, including errors.", "anchors": ["dialog/dialog.go: nextMessageNumber, newBasicMessage, init, end, SendMessage"]}
{"id": "C25", "title": "Every dialog opened by SendMessage is ended", "statement": "If SendMessage got past the initialisation, it ends the dialog exactly once with the dialog ID the bank assigned, after the request, no matter whether signing, encryption, transport or the bank fail; if the initialisation fails no dialog end is sent.", "quantifier": "every bank behaviour and every failure point", "why_tests_cant": "All failure points of the conversation.", "anchors": ["dialog/dialog.go: SendMessage, SyncUserParameterData, end"]}
{"id": "C26", "title": "Error acknowledgements never look like success", "statement": "If any acknowledgement in the bank's answer to the initialisation or to the request has an error code (>= 9000), SendMessage returns an error and no message; if it returns a message, that message contains no error acknowledgement and is the bank's answer to exactly the request that was passed in.", "quantifier": "every bank behaviour", "why_tests_cant": "All responses and all positions of the error code.", "anchors": ["dialog/dialog.go: SendMessage, init, SyncClientSystemID"]}
{"id": "C27", "title": "The chosen security function is one the bank offers", "statement": "Whenever the dialog changes its security function because of a bank response, the new function is in the list the bank allowed for the user (code 3920) and among the two-step procedures in the bank parameters; it is then used by the signature and the encryption provider alike.", "quantifier": "every bank response and every map iteration order", "why_tests_cant": "Go map iteration order is random; the claim is about every order.", "anchors": ["dialog/dialog.go: updateSecurityFunctionIfNeeded, supportedSecurityFunctionsFromBankMessage, SetSecurityFunction"]}
{"id": "C28", "title": "Account list contains each account once", "statement": "Accounts() returns each account reported by the bank once. (False: every initialisation and synchronisation appends the bank's list again, so the list grows with each call.)", "quantifier": "every sequence of API calls", "why_tests_cant": "A history property.", "anchors": ["dialog/dialog.go: parseUserParameterData", "client/client.go: Accounts"]}
{"id": "C29", "title": "All pages of a paginated answer are returned in order", "statement": "When the bank answers with continuation marks, SepaAccountBalances returns the balances of all pages, concatenated in the order received, each continuation request carries the mark of the preceding answer, and requesting stops exactly at the first answer without a mark; an error on any page discards everything and is returned. The mark is sent back unchanged (false if it has syntax characters, which get escaped twice). AccountTransactions delivers the data of all pages in order too (if the clock advances between pages).", "quantifier": "every finite sequence of bank answers", "why_tests_cant": "Recursion over an unbounded number of pages.", "anchors": ["client/client.go: SepaAccountBalances, accountTransactions"]}
{"id": "C30", "title": "The highest segment version both sides support is used", "statement": "The request builders choose the highest version that is both offered by the bank and implemented, and fail exactly when there is none. (False for the status protocol, where versions 3 and 4 are swapped, and for SEPA transactions, where building always fails.)", "quantifier": "every list of versions offered by the bank", "why_tests_cant": "All version lists in all orders with duplicates.", "anchors": ["segment/account_balance.go: AccountBalanceRequestBuilder, SepaAccountBalanceRequestBuilder", "segment/account_transaction.go: AccountTransactionRequestBuilder, SepaAccountTransactionRequestBuilder", "segment/tan.go: TanProcess4RequestBuilder", "segment/hbci_version.go: NewBuilder", "segment/status_protocol.go: StatusProtocolRequestBuilder"]}
{"id": "C31", "title": "Generated IBANs are valid", "statement": "Every IBAN returned without error by New or NewGerman passes Valid, and From accepts its string form and returns the same IBAN. (False for account parts starting with '-' and for two non-ASCII country codes.)", "quantifier": "every country code and BBAN string", "why_tests_cant": "Modular arithmetic over numbers of up to 68 digits.", "anchors": ["iban/iban.go: New, NewGerman, From, Valid"]}
{"id": "C32", "title": "IBAN check digits are unique and From is strict", "statement": "For every country code and BBAN there is exactly one two-digit check number that From accepts, the one computed by New; everything From accepts passes Valid (with the exceptions of C31). Valid itself is the ISO 7064 check and takes two check numbers where they differ by 97. From panics exactly on inputs shorter than four bytes. IsValid says true exactly when From can read the value and Valid accepts it, says false when From reports an error, and panics where From does.", "quantifier": "every input string of at least four characters", "why_tests_cant": "All strings.", "anchors": ["iban/iban.go: From, New, Valid, proofNumber"]}
{"id": "C33", "title": "IBAN check detects typing errors", "statement": "Changing a single digit of the account part, or swapping two adjacent different digits, turns every IBAN accepted by Valid into one that is rejected; so does replacing a letter by another letter. Swapping a digit and a letter goes unnoticed exactly for 1/B, 2/M and 3/X.", "quantifier": "every valid IBAN, every position, every digit", "why_tests_cant": "Error detection is a statement about all numbers and positions.", "anchors": ["iban/iban.go: Valid, validate"]}
{"id": "C34", "title": "The SWIFT lexer terminates and loses no bytes", "statement": "Lexing any byte string with the SWIFT lexer terminates with one EOF or ERROR token, never panics, and the token values are contiguous pieces of the input.", "quantifier": "every byte string", "why_tests_cant": "All inputs; the lexer looks ahead and resets its position.", "anchors": ["token/swift_lexer.go"]}
{"id": "C35", "title": "SWIFT tags are extracted completely", "statement": "For a SWIFT message made of fields with proper ids, the extracted tags are exactly these fields in order if and only if each value is in the permitted format: no NUL byte, no further line that begins like a field or ends the message, and, if it has several lines, a first line that is neither empty nor only capitals and digits nor an amount (such values are refused or split, which is refuted as a claim for all values). Messages one after the other are separated without loss.", "quantifier": "every list of tags and values", "why_tests_cant": "Tag boundaries inside multi-line values depend on arbitrary text.", "anchors": ["swift/tag_extractor.go", "swift/message_extractor.go", "token/swift_lexer.go"]}
{"id": "C36", "title": "Merging MT940 messages keeps all data in time order", "statement": "MergeMT940Messages returns the concatenation of the data of all given messages ordered by time stamp, none lost, none duplicated.", "quantifier": "every list of messages and time stamps", "why_tests_cant": "All lists, ties in time stamps.", "anchors": ["swift/unmarshal.go: MergeMT940Messages"]}
{"id": "C37", "title": "Transaction amounts keep their sign", "statement": "UnmarshalMT940 delivers every entry that takes money from the account (D, RC) with the negated amount and every other one (C, RD) with the amount itself. This is false; it holds exactly for entries with a booking date whose mark is not RC, and without a booking date only for C (in another kind than D) and for D in kind D: for all others the sign is turned round. Balance() of a balance is negative exactly for debits, but the balances delivered with the transactions carry no sign.", "quantifier": "every list of well-formed MT940 statements with any number of entries, every amount, every clock year of four digits", "why_tests_cant": "All marks, funds codes, with and without booking date, all amounts.", "anchors": ["swift/mt940.go: AccountTransactions, TransactionTag.Unmarshal, BalanceTag", "swift/unmarshal.go: UnmarshalMT940"]}
{"id": "C38", "title": "Base64 transport framing is transparent", "statement": "The bank receives the RFC 4648 Base64 form of exactly the request bytes, however the request is read, and the caller receives exactly the bytes whose Base64 form the bank sent, with line breaks anywhere and however the response is read. A body is accepted by the decoder exactly if it has the shape of Base64 text.", "quantifier": "every request and response body, every division into reads, every inner transport", "why_tests_cant": "All byte strings of all lengths mod 3, all chunkings.", "anchors": ["transport/middleware/encoding.go: Base64Encoding", "transport/middleware/logging.go: Logging", "transport/https/https.go", "dialog/pin_tan_dialog.go: NewPinTanDialog"]}
{"id": "C39", "title": "Bank lookup", "statement": "FindByBankID returns the last entry with the requested bank ID whenever the table has one, and the empty entry otherwise; the protocol version taken from an entry is the highest one the entry names, -1 if it names none, and a panic exactly if a version field is neither empty nor known; the table made from a CSV file has one entry per record with a bank ID, in order.", "quantifier": "every bank table, every bank ID, every entry", "why_tests_cant": "All tables and ids.", "anchors": ["bankinfo/bank_info.go: FindByBankID, HbciVersion", "bankinfo/parser.go: ParseBankInfos"]}
{"id": "C40", "title": "Timeframes survive their textual forms", "statement": "Parsing the query of a timeframe gives it back, and a query is read exactly if both keys give the digits of real dates. Parsing the JSON form gives the timeframe back exactly if both dates are set or none is (with one date set it is lost: refuted); any JSON text is read without an error, as the empty timeframe unless it is two real dates. A single date survives its text form always, and its JSON form exactly if it is set (an unset date gives an error: refuted). Years of five digits survive none of the forms (refuted).", "quantifier": "every pair of calendar dates, every query, every JSON text", "why_tests_cant": "All dates, zero value included, all malformed inputs.", "anchors": ["domain/time.go: ShortDate, Timeframe, TimeframeFromQuery, ToQuery"]}
{"id": "C41", "title": "Parts of a German IBAN", "statement": "For a bank ID of eight digits and an account number of digits, CountryCode, BankID and AccountID of the IBAN made by NewGerman are DE, the bank ID, and the account number without leading zeros; the IBAN has the 22 characters of a German IBAN exactly if the account number was given with nine or ten digits.", "quantifier": "every bank ID of eight digits, every account number", "why_tests_cant": "All account numbers, leading zeros, lengths 0..10.", "anchors": ["iban/iban.go: NewGerman, BankID, AccountID, CountryCode"]}
{"id": "C42", "title": "The printed IBAN", "statement": "Print returns the characters of the IBAN in their order with one space after every four, and no space at the end.", "quantifier": "every IBAN of letters and digits of any length", "why_tests_cant": "All lengths modulo four.", "anchors": ["iban/iban.go: Print"]}
{"id": "C43", "title": "Dates of MT940 entries", "statement": "A valuta date YYMMDD is read as the date the bank wrote exactly if it lies in the century of the clock. The booking date MMDD is read as the date the bank wrote exactly if it is in the valuta year and at most one month number away, or in the year after and further away; in particular, with dates in the same or adjacent months, exactly if the booking is not in the year before the valuta (a booking in December with valuta in January is delivered two years late).", "quantifier": "every pair of calendar dates, every clock year of four digits, every rest of the entry", "why_tests_cant": "All dates, turns of the year and century, 29 February.", "anchors": ["swift/mt940.go: TransactionTag.Unmarshal, parseDate"]}
{"id": "C44", "title": "Structured :86: fields", "statement": "A :86: field of a three-digit code and sub-fields ?nn in ascending order, cut into lines anywhere, is read with code, booking text, purpose lines, bank, account, name and additional key as written (names of two parts joined by a space). A field with keys in ascending order of their first occurrence never makes the reader panic; one with keys out of order is never read, and (without ?34) makes it panic.", "quantifier": "every list of sub-fields with texts in which no key occurs, every division into lines; for the second part every text", "why_tests_cant": "All subsets of 21 keys, all texts, all line divisions.", "anchors": ["swift/element.go: CustomFieldTag.Unmarshal"]}
{"id": "C45", "title": "Statements that cannot be read", "statement": "UnmarshalMT940 reports statements it cannot read as an error. This is false: one message without :25: field among the messages, or one entry that cannot be read after at least one that can, makes the whole call panic.", "quantifier": "every list of SWIFT messages that contains such a message, at any place", "why_tests_cant": "All positions of the message and of the entry, all other messages.", "anchors": ["swift/unmarshal.go: UnmarshalMT940", "swift/mt940.go: AccountTransactions", "swift/mt940_unmarshaler.go: Unmarshal"]}
{"id": "C46", "title": "Every booked entry is delivered once", "statement": "For a sequence of well-formed statements UnmarshalMT940 returns one transaction per entry, in the order of statements and entries, each with the account of its statement, the currency of the opening balance, its valuta date, and the texts of the :86: field that follows it (empty if none follows). An account is two texts with exactly one slash between; a statement with a field of an unknown kind is never read without an error.", "quantifier": "every list of well-formed statements: any number of statements and entries, optional fields present or not, entries with or without description", "why_tests_cant": "All lengths, all combinations of optional fields, all texts.", "anchors": ["swift/unmarshal.go: UnmarshalMT940", "swift/mt940_unmarshaler.go: Unmarshal", "swift/mt940.go: AccountTransactions"]}
{"id": "C47", "title": "References of an entry", "statement": "Customer reference, bank reference (after //) and additional information (on a new line after /) of an entry come out separately if the customer reference contains no // and no line break, does not end in / before a bank reference, the bank reference has no line break, and the information contains no // when there is no bank reference. The reader panics exactly if a line beginning with // comes before any other separator. Mark and currency letter are what the bank wrote exactly if there is a booking date and, for reversals, a currency letter.", "quantifier": "every entry with such texts", "why_tests_cant": "All texts and positions of slashes and line breaks.", "anchors": ["swift/mt940.go: TransactionTag.Unmarshal"]}
{"id": "C48", "title": "Which bank, address and version a new client uses", "statement": "New returns a client exactly if the wanted protocol version, the configured one or else the highest one named by the last entry of the bank, is one the library speaks; the client has the configured address or else that of the entry, and the configured user, PIN and product. It panics exactly if no version is configured and the entry names an unknown version, which no entry of the built-in table does; otherwise there is an error. As documented (an error for a bank without an entry) it is false: with a configured version there is a client without an address. A later empty entry hides a usable one, and an entry that also names a newer version gives no client (both occur in the built-in table).", "quantifier": "every bank table, every configuration", "why_tests_cant": "All tables and configurations; the built-in table has 3645 entries.", "anchors": ["client/client.go: New, Config", "bankinfo/data.go", "segment/hbci_version.go: SupportedHBCIVersions"]}
{"id": "C49", "title": "Damaged and interrupted answers", "statement": "One would expect that an answer that is not Base64, is cut off, or has an HTTP error status is reported as an error. This is false: the dialog always goes on, without an error, with the bytes decoded up to the damage; after an interruption these are a beginning of what the bank sent. The HTTP status makes no difference. No answer at all is an error.", "quantifier": "every inner transport, every answer, every cutting point, every division into reads", "why_tests_cant": "All damages and interruption points.", "anchors": ["transport/middleware/logging.go: Logging", "transport/middleware/encoding.go: Base64Encoding", "transport/https/https.go: Do", "dialog/dialog.go: request"]}
{"id": "C50", "title": "Calls of one request return what the bank's answer says", "statement": "If AccountBalances succeeds, exactly one job was sent, the bank answered it without an error, and the result is what the HISAL segments of this answer say, in their order; there is at least one. If AccountInformation succeeds, exactly one job was sent and what is printed is the first segment of its error-free answer that begins with HIKIF; without such a segment the call fails.", "quantifier": "every state of the client, every bank, every signature and transport behaviour", "why_tests_cant": "All answers of the bank and all histories before the call.", "anchors": ["client/client.go: AccountBalances, AccountInformation", "message/decryption.go: FindMarshaledSegment"]}
{"id": "C51", "title": "Balances arrive as the bank sent them", "statement": "AccountBalances returns from a balance answer of versions 5 to 8 the account, product, currency, booked and earmarked balance with sign, credit line, available and used amount, due date and, in version 8, the seizable amount exactly as the bank sent them; SepaAccountBalances the international account too (versions 7 and 8; for older ones it crashes). False for the booking date: if the bank sends a booking time too, the reported moment is 366 days early; a booking time without a date crashes, and release characters stay in national account numbers.", "quantifier": "every balance answer with valid values, every combination of optional fields, every text, all four versions", "why_tests_cant": "All values, all texts with delimiters, all combinations of optional fields.", "anchors": ["segment/account_balance.go: AccountBalance, SepaAccountBalance", "segment/account_balance_unmarshaler.go", "element/group_data_element_group.go", "element/group_data_element_group.go: AccountConnectionDataElement"]}
{"id": "C52", "title": "Booked transactions arrive byte for byte", "statement": "From a transaction answer the caller gets exactly the bytes of the booked transactions, whatever bytes these are, with or without transactions that are still pending. An answer without booked transactions crashes the caller.", "quantifier": "every byte sequence as booked and pending transactions, every segment number and reference", "why_tests_cant": "All byte sequences, including those made of delimiters and length marks.", "anchors": ["segment/account_transaction.go: Transactions", "segment/account_transaction_unmarshaler.go", "element/data_element.go: BinaryDataElement"]}
{"id": "C53", "title": "Accounts of the user parameter data", "statement": "Account, user, currency, names, product and permitted jobs of an account arrive as the bank sent them in versions 4 and 5. In versions 6 and 7 only the first permitted job arrives (and the IBAN never). An account limit crashes the reader; a permitted job with a limit amount makes the whole account unreadable.", "quantifier": "every account, any number of jobs, all texts, all four versions", "why_tests_cant": "All lists of jobs and all texts.", "anchors": ["segment/basic_account_information.go", "segment/basic_account_information_unmarshaler.go", "element/user_parameter_data.go"]}
{"id": "C54", "title": "Client system ID, user and bank parameter data", "statement": "The client system ID, the user's name and ID with the version of the user parameter data, and the bank's name, code and versions of the bank parameter data arrive as the bank sent them. The user's name only arrives in version 4 (version 3 has it too and loses it), and a missing mandatory field crashes the caller.", "quantifier": "every such segment with valid values, all texts, all versions", "why_tests_cant": "All values and texts.", "anchors": ["segment/sync.go", "segment/user_parameter_data.go", "segment/common_bank_parameter_data.go", "element/bank_parameter_data.go"]}
{"id": "C55", "title": "Which jobs need a TAN, and the TAN processes", "statement": "The list of jobs and whether each needs a TAN arrives completely and in order; the TAN processes arrive completely and in order, and the security functions of the TAN processes are the bank's. Texts of TAN processes keep the release characters of the wire format. Too few elements crash the reader.", "quantifier": "any number of jobs and processes, all values", "why_tests_cant": "All lengths, all values.", "anchors": ["segment/pin_bpd.go", "segment/business_transaction.go", "segment/tan_bpd.go", "element/pin.go: PinTanSpecificParamDataElement", "element/tan.go", "element/bank_parameter_data.go: PinTanBusinessTransactionParameters"]}
{"id": "C56", "title": "Every request goes out byte by byte as the protocol asks", "statement": "For every PIN/TAN client and every request it makes (synchronisation, dialog initialisation, balances, transactions, account information, status, dialog end), with any dialog ID, message number, accounts, dates and continuation mark, the bytes handed to the transport are exactly: the message header with the true length, the envelope with security header and readable content, in it signature header, the request's segments numbered consecutively, signature end with the PIN, and the message end. Anonymous messages have the segments alone. Without a PIN an error is returned and nothing is sent. This fails for texts ending in ':' or '+', e.g. a PIN, whose last character is cut off so that the following apostrophe reads as escaped; and if only the last day of a timeframe is given, the first day sent is a month before today even where that is after the last day.", "quantifier": "all banks, users, product names, secrets, requests, arguments, dates and histories", "why_tests_cant": "All values of every text and number field, including those with syntax characters; the size field depends on the whole message.", "anchors": ["message/message.go: Sign, Encrypt, MarshalHBCI, SetSegmentPositions", "message/signature.go", "message/crypto.go", "segment/signature_header.go", "segment/encryption_header.go", "segment/dialog.go", "segment/account_transaction.go", "segment/account_balance.go", "client/client.go"]}
{"id": "C57", "title": "What a client finds in a bank's message is what the bank wrote", "statement": "Every well-formed message of a bank, in an envelope or not, with any number of segments of any kind (known or unknown to the library) in any order, is read without error, and dialog ID, version, message number, the message it replies to, the return codes in their order with texts and parameters, the system ID, bank and user parameters, accounts, TAN processes, balances and booked transactions, the announced jobs with their versions and the raw segments are exactly those the bank wrote. This is false of return codes in a second segment about the message: these are lost, so that an error there is not seen.", "quantifier": "all messages: any numbers, texts and binary data, any list of segments, any envelope fields", "why_tests_cant": "All messages; whole messages combine all the ways in which single segments and delimiters can interact.", "anchors": ["message/decryption.go: NewDecryptedMessage", "message/unmarshaler.go", "dialog/dialog.go: request, extractUnencryptedMessage", "message/segment_extractor.go", "segment/element_extractor.go", "segment/acknowledgement.go"]}
{"id": "C58", "title": "From the caller to the wire and back, for every history of calls", "statement": "A PIN/TAN client talks to a bank that answers every message without an error code, and answers synchronisations with a system ID and parameters (announcements, if any, having a subject and a body). Then, whatever calls were made before with whatever arguments: every message that went out is the one of the specification for its dialog, number and purpose, signed with the user's PIN, and every job is one that some call asked for. Accounts succeeds with the accounts of all synchronisations and initialisations so far. AccountBalances succeeds, if the bank offers version 5 or 6 and answers with balances, with exactly the balances of the answer. SepaAccountBalances returns the balances of all pages in order, and AccountTransactions the entries of the statements of all pages, each once and in order (if the clock advances between its readings), unless the bank asks to continue after every page.", "quantifier": "all histories of calls, all arguments, all users and PINs, all clocks, all such banks (any function from the history of messages to messages)", "why_tests_cant": "All histories and all behaviours of the bank; every layer from dialog state to bytes takes part.", "anchors": ["client/client.go: Accounts, AccountBalances, SepaAccountBalances, AccountTransactions", "dialog/dialog.go: SyncClientSystemID, init, SendMessage, end", "message/message.go", "message/decryption.go", "swift/mt940.go"]}
{"id": "C59", "title": "Status reports, TAN challenges and announcements of the bank", "statement": "For every status report, TAN challenge and announcement that the bank writes as the specification says, with texts containing any delimiters: a status report reaches the caller with its return code, position, text, parameters, and the message and segment it is about. Its time, however, is not the time the bank sent: it is the bank's date plus 292 years whatever time of day was sent, because the time is subtracted from the clock instead of added to the date; and a report about a whole message, without a segment number, crashes the call. A TAN challenge is read with its process and order hash, but the challenge and everything behind it end up in the job reference. An announcement is read with its subject and body.", "quantifier": "all codes, positions, texts and parameters, dates and times, references, challenges, subjects and bodies, all readings of the clock, all messages containing such segments", "why_tests_cant": "All texts and times; delimiters within texts, absent elements and the wrong time only show for some of them.", "anchors": ["segment/status_protocol.go", "element/acknowledgement.go", "client/client.go: Status", "segment/tan.go", "segment/bank_announcement.go", "segment/element_extractor.go"]}
{"id": "C60", "title": "Which answers of a bank crash a call", "statement": "No call should crash because of what a bank answers, as long as it answers in the form of the specification. This is false, and the exact exceptions are these. Reading a message in the form of the specification crashes exactly if it has account information with related persons, ways of communication, security or compression methods, a signature header with a certificate, or a signature end of version 2 with a PIN. SendMessage, SyncUserParameterData, SyncClientSystemID, SendAnonymousMessage, Accounts and AccountInformation crash exactly if one of the answers they get is such a message, or the answer to an initialisation has an announcement without subject or body, at every point of every history. The other calls crash then too; otherwise they do not crash, provided the segments with the contents they ask for have the elements they need and a return code 3040 has a parameter. Whatever the bytes of the bank's answers are, a crash while reading one reaches the caller.", "quantifier": "all messages of the bank in the form of the specification, all histories of messages, all calls and arguments, all states of the dialog; the last part: all bytes", "why_tests_cant": "All messages, histories and states; the forms that crash are rare, and the tests use none of them.", "anchors": ["dialog/dialog.go: SendMessage, SyncClientSystemID, SyncUserParameterData, SendAnonymousMessage, init, anonymousInit, end", "client/client.go", "message/unmarshaler.go", "segment/element_extractor.go", "segment/bank_announcement.go", "segment/account_information.go", "segment/communication_access.go", "segment/supported_security_method.go", "segment/supported_compression_method.go", "element/signature.go", "element/pin.go"]}
{"id": "C61", "title": "RSA encryption and decryption invert each other", "statement": "For every RSA key pair, what the engine encrypts with one exponent the engine decrypts with the other one. Encrypting a message that fits below the modulus gives as many bytes as the modulus has, with the value of the power, so that different messages never get the same cipher text; a message that does not fit panics, and working on a part of a slice is working on the bytes of that part. The round trip is not exact: zero bytes in front of the message are lost, a message of zero bytes (or an empty one) panics, and with a private key that knows the factors of the modulus every operation panics.", "quantifier": "all pairs of exponents and all moduli that are products of two different primes, all messages, all parts of all slices, all earlier keys of the engine", "why_tests_cant": "All key pairs and messages: the correctness of RSA is a theorem of number theory, the losses only show for messages with zero bytes.", "anchors": ["crypto/rsa.go"]}
{"id": "C62", "title": "Signatures with ISO 9796-1 padding: what is signed, and what is accepted", "statement": "For every RSA key pair, a message that was signed with the one exponent should be recovered with the other one, and only what was signed should be accepted. Signing raises exactly the number of ISO 9796-1 to the power, for every message that fits, except that for moduli whose number of bits leaves 3 to 8 modulo 16 it panics; too long a message panics, and signing an empty one never returns. Both wishes are false, exactly as follows: the message is recovered only if it fills all bytes there are and the bits of the modulus leave 0, 1 or 10 to 15 modulo 16, otherwise the repeated message or something else is returned and the number of padding bits is always reported as 0. Every number below the modulus whose power ends in the half byte 6 and has more than one byte is accepted as a signature, without a look at the redundancy, so that for the exponent 3 a signature can be forged from the modulus alone; if the complement ends in 6, recovering panics.", "quantifier": "all key pairs, sizes of the modulus, messages, parts of slices, numbers of padding bits from 0 to 7; all bytes as signatures", "why_tests_cant": "All sizes of moduli and messages: the sizes that fail are residues modulo 16, and a forged signature is not in any list of examples.", "anchors": ["crypto/iso9796_encoding.go", "crypto/rsa.go"]}
{"id": "C63", "title": "The log of a dialog changes nothing, and what it shows", "statement": "The transport of a dialog takes every request and every answer apart for the log, also if nobody asked for one. This should change nothing and should not reveal the PIN. It changes nothing as long as the library's own reader does not crash on the request, which no request the library composes from proper values makes it do: the dialog gets the same message, error or crash; a request that crashed the reader would not be sent. Unless debugging is on nothing is written. If it is on, the second wish is false: the reader refuses every signed request, so that its four segments are written as they are, and the PIN stands in the log of every signed request. Requests of anonymous dialogs and answers are written with their header and each of their segments.", "quantifier": "all transports, requests and answers; all callers, PINs, dialogs, message numbers and kinds of requests with proper values, all clocks; all answers of proper form", "why_tests_cant": "All requests and answers: the log is only written in debug mode, and that the PIN is in it shows only in a request that is signed and refused by the reader.", "anchors": ["transport/middleware/logging.go: Logging, writeMessage, writeRawSegments, readMessageData", "internal/logger.go: SetDebugMode", "dialog/pin_tan_dialog.go: NewPinTanDialog"]}
{"id": "C64", "title": "A bank reads in a request what the caller gave, and nothing else", "statement": "A bank that takes a request apart by the rules of the syntax - release characters, separators, blocks of binary data - finds exactly the segments the protocol asks for and in each of them exactly the values the caller gave, whatever characters these are made of: no account number, name, PIN or continuation mark can add, remove or change a segment or another value. Two requests with the same bytes ask for the same thing in the same dialog with the same number, for the same user and with the same PIN, except that an absent bank of an international account is not told from country 0 with an empty bank, and an absent day from the one it stands for. The statement is false for texts that end in '+' or ':': PINs that differ only in these give the same bytes.", "quantifier": "all callers, PINs, dialogs, message numbers, kinds of requests and values of them whose texts do not end in ':' or '+', all clocks; all pairs of such requests", "why_tests_cant": "All texts and all pairs of requests: an injection needs a special text, and that no two requests are confused is a statement about pairs.", "anchors": ["element/data_element.go", "element/group_data_element_group.go", "segment/segment.go", "message/message.go", "message/signature.go", "message/crypto.go", "charset/convert.go"]}
{"id": "C65", "title": "Keys sign, encrypt and carry their names as the bank expects", "statement": "The holder of the other half of an RSA key should accept what a key signed and read what a key encrypted, and a key's name should say what was set. For every RSA key pair the bank accepts the signature of every message that is at least eleven bytes shorter than the modulus, for this message and for no other one, and longer messages are refused; for every padding the private half reads exactly the message that was encrypted, and too long a message, an exponent below 2 or from 2^31 on and a failing random source are errors. CanSign and CanEncrypt tell exactly which keys panic: generated keys only sign, keys made from a modulus only encrypt. A PIN key's signature is the PIN whatever is signed. After any calls on any keys the name of a key has the number and version set last, also through another key that shares the name. The request for the bank's keys has exactly the specified bytes, and String() of the other key management segments has exactly the specified text. Not so: of an exponent longer than eight bytes only the last eight count, without any error; no key that the library makes, generated or made from a modulus, can be written into a segment - each attempt panics, because the exponent has to be the five characters 65537; and any text is taken for a reason of a revocation.", "quantifier": "all RSA key pairs and sizes of moduli, messages, paddings, exponents in bytes; all sequences of calls on all keys and names; all names, dialogs, references, reasons and times of the segments", "why_tests_cant": "All key pairs and messages: a generated key is different each time, and which messages are refused depends on sizes; shared names only show in sequences of calls.", "anchors": ["domain/key.go", "element/key_management.go", "segment/key_management.go", "segment/segment.go: String"]}
{"id": "C66", "title": "What an RSA signature of a message covers, and dialogs for card readers", "statement": "The signature of a message should cover the bytes that are sent, and a dialog for card readers should be usable. A key with a modulus of 31 bytes or more signs every message that has a header, an end and a body without nil segments, and any other message panics. But what is signed is the hash of the printed form of the segments, which differs from the bytes sent for every message, because the printed form keeps empty elements at the end: so a bank that checks the signature over the bytes it received accepts it exactly if these two different texts have the same hash. The signature header has exactly the specified bytes; it announces the profile PIN for HBCI 3.0, and its control reference is the one of the key's name when the provider was made, whatever number and version the key was given since, while the name beside it is the current one. The control reference does not tell keys apart: where the bank code ends and the user begins makes no difference. A dialog for card readers can be made unless generating its key fails, which panics; after that every call panics, in every sequence of calls, and nothing is ever sent.", "quantifier": "all messages, key pairs with moduli of at least 31 bytes, hash functions of 20 bytes, clocks, settings; all sequences of calls on keys and on dialogs", "why_tests_cant": "All messages and hash functions; the library has no test that verifies a signature of a message as a bank would, and the panics need no special input that a test would choose.", "anchors": ["message/signature.go: NewRDHSignatureProvider, rdhSignatureProvider", "message/message.go: Sign", "segment/segment.go: String, MarshalHBCI", "segment/signature_header.go", "segment/signature_end.go", "dialog/rdh_dialog.go", "dialog/dialog.go"]}
{"id": "C67", "title": "IsValid says what it means", "statement": "IsValid should tell whether an element fits what the protocol allows. It is decided exactly by these rules: an alphanumeric element, an identification or a code has at most its maximal number of bytes and no line end, space or & (the documentation excludes line ends only); a number or digits have at most the maximal number of characters, which for them is exactly when what is sent fits; a currency has three bytes; a date or time is not the zero time; a group has the number of parts its constructor says, the parts that are mandatory, and only valid parts; an array is within its bounds. Bank, account and key references, segment headers, PINs and acknowledgements follow from that. It is wrong for the rest: a boolean and binary data that was read are never valid, and no group with a boolean is, because the length of another text is measured; amounts from a million on or below 0.0001 are measured in a form with exponent, so that amounts of any size pass and others that fit fail; a code element accepts every value up to the greatest member of its set, member or not, and making one sorts the caller's slice; acknowledgements are valid with exactly ten parameters only. IsValid panics on a bank reference that was read and on a country that could not be read. And it is never asked: invalid elements are sent like valid ones. The same rules decide the elements of signatures, encryption, parameter data, addresses and balances; a public key with a modulus of 2048 bits and an address with a space in the street are never valid. Length is the sum of the lengths of what fmt prints for the parts (dates and times not considered), which is not the number of bytes sent. A virtual date is valid by its own test if its number has eight characters.", "quantifier": "all elements of any depth and size, all values of the constructors, all bytes read", "why_tests_cant": "All values, sets of codes and nestings; the wrong answers are at the edges of the measured lengths and for types whose printed form differs from what is measured.", "anchors": ["element/data_element.go: IsValid, Length, NewCode", "element/group_data_element_group.go", "element/segment_header.go", "element/message.go", "element/acknowledgement.go", "element/signature.go", "element/pin.go", "element/encryption.go", "element/key_management.go"]}
{"id": "C68", "title": "The error a call returns says what the bank reported", "statement": "If something goes wrong in a call - the transport fails, an answer cannot be read, or the bank reports errors (codes from 9000 on) - the call should fail, and its error should say what happened. For every call of a dialog and of a client, at whatever message of its conversation this happens (the end of the dialog excepted, unless it ends a synchronisation): the call does not succeed, and the error it returns ends with the transport's error, with the reader's error, or with 'returned errors:' and one entry on a new line for each error of the bank, in the bank's order, with the kind, the code, the data element, the bank's text and the parameters; warnings and successes are not listed. The exceptions: Accounts says only 'error getting accounts' when the second dialog fails; errors in the answer to the end of a dialog are not returned at all; errors of an initialisation are introduced as if the end of the dialog had failed; the entries about segments name message 0 instead of the one answered (those about messages name the right one); and an entry takes more than one line exactly if the bank's text, its data element or the dialog ID has a line feed.", "quantifier": "all calls of dialogs and clients, all states before them, all banks and transports, all positions of the failing message in the call, all acknowledgements, segments' readers whose accessors do not fail (the library's do not)", "why_tests_cant": "All conversations: which of the many returns of a call is taken depends on which message fails and how, and on how many acknowledgements of which kinds the answer has.", "anchors": ["dialog/dialog.go", "client/client.go", "domain/acknowledgement.go: String, IsError", "message/decryption.go: NewDecryptedMessage, Acknowledgements", "segment/acknowledgement.go"]}
{"id": "C69", "title": "Printed tables show every value in its place", "statement": "Printing balances, transactions and accounts should show one line per value with all its parts in order, each below its heading. For all lists whose texts have no tabs and line ends: an empty line, the header and one line per element, every part complete and in the order of the header; every column has one width, the number of characters of its longest cell (heading included) and at least 20 or 24; single-byte texts of the bank count one per character; the account with its balance before and after around transactions; the footnote exactly if an earmarked amount is not zero; bars between the columns of a single account. What is not so: there is no space between the columns, so a value that is the longest of its column is directly followed by the next one (a product name of 20 characters or more by the bank code; in a single transaction every bank code of eight characters, as all German ones are, by the account number); an empty first cell is replaced by at least 20 tabs, so that the line is not below the header; and a line end or tab in a text, such as the purpose the payer chose, can show a transaction that does not exist.", "quantifier": "all lists of balances, transactions and accounts of any length, all texts of any length", "why_tests_cant": "All combinations of lengths of texts in all rows decide the layout; the values that run together are those at the exact width of a column.", "anchors": ["domain/account_balance.go: String", "domain/account_transaction.go: String", "domain/account_information.go: String"]}
{"id": "C70", "title": "The command line program does what it says, or exits with 1 and the reason", "statement": "A call of the banking program (accounts, balances or transactions) should show what the bank says about the wanted account, and exit with 0 only then. For every bank, every history and all flags: without user ID or bank code it says which is missing and sends nothing; every request concerns the given account (by default the user ID) in the given bank, and asks for transactions from exactly the given number of calendar days before today; exit code 0 means the answers were taken without trouble and the printed table is made of their contents, page by page; as soon as a message that is not an end of dialog fails or is answered with errors, the exit code is 1 and the text says what the bank or the transport said (or the program crashes). With a bank that answers as the standard says, accounts, balances and transactions print exactly what the answers contain. What is not so: transactions without --disableSepa never succeed; a user ID of more than 10 characters as default account fails before anything is sent, as does every account whose IBAN cannot be built, even with --disableSepa; balances of one account ask for those of all accounts; --hbci.url does not help for a bank that is not in the table; accounts may say no more than 'error getting accounts'.", "quantifier": "all flags, all banks (functions from what was sent so far to an answer or failure), all days of the calendar, all histories of pages", "why_tests_cant": "The bank's answers, the number of pages and the point of failure are arbitrary, and the first day depends on the calendar of every day and number of days.", "anchors": ["cmd/banking/root.go: initClient, execute", "cmd/banking/accounts.go", "cmd/banking/balances.go", "cmd/banking/transactions.go"]}
{"id": "C71", "title": "The anonymous client tells the bank nothing about its user", "statement": "CommunicationAccess of an AnonymousClient should ask the bank anonymously and hand on its answer. Whatever the client did before and however the bank answers: first the initialisation of the anonymous customer 9999999999 with system ID 0 goes out, unsigned, with number 1; if the bank's answer is usable the question follows with number 2 and exactly the two banks and the number of entries given, then the dialog end with number 3, both with the dialog ID the bank assigned; otherwise nothing follows and the call fails. What is sent and what is returned does not depend on user ID, PIN, client system ID, security function, clock or earlier messages: two users with the same bank, product and parameter versions send the same bytes and get the same. PIN, client system ID and security function are afterwards as before. A returned message is the bank's error free answer to the question. What is not so: the answer one asks for can never be returned, since the call panics as soon as the bank tells the ways to reach an institute; and if the bank sends user parameters in the anonymous dialog, they replace the customer ID of the client in its later dialogs.", "quantifier": "all banks, histories, users, secrets, clocks, arguments and answers", "why_tests_cant": "That no bit of the user's data reaches the bank is a statement about pairs of runs with all possible secrets and answers.", "anchors": ["client/client.go: AnonymousClient.CommunicationAccess", "dialog/dialog.go: SendAnonymousMessage, anonymousInit, anonymousEnd", "segment/communication_access.go"]}
{"id": "C72", "title": "Bank tables are read from CSV files as they are written", "statement": "ParseBankInfos and ParseBicData accept exactly the files that are made of empty lines and of lines with fields separated by semicolons, where a field is either free of quotes, semicolons and line feeds or is in quotes with the quotes in it doubled, and blanks before a field do not count; line ends are LF or CR LF. For every other file they return an error and nothing else. From an accepted file with different column names they return one entry for every row with something in the column of bank IDs, in order, with the fields of the named columns without the (Unicode) blanks around them; missing fields are empty. Every table can be written such that it is read back, whatever its fields are, if they have no carriage returns. In the table the generator makes of several files in ISO 8859-1, looking up a bank ID gives one of the entries with that ID if a file has one, and the empty entry otherwise.", "quantifier": "all byte strings as files, all tables, all rearrangements by sort", "why_tests_cant": "Which files are accepted and what they say is a statement about all texts: quotes, line ends and blanks can stand anywhere.", "anchors": ["bankinfo/parser.go: ParseBankInfos, ParseBicData", "cmd/bankdata_parser/bankdata_parser.go: main", "bankinfo/bank_info.go: FindByBankID"]}
{"id": "C73", "title": "The Go source made from bank tables says the tables", "statement": "cmd/bankdata_parser should write a Go file whose variable holds exactly the entries read. For every table: read as Go source, the file is the package bankinfo with one variable of all entries in order, each field with its text, if and only if no text but the names of institutes has a quotation mark, a backslash, a line feed, a NUL, a byte order mark or bytes that are not UTF-8. Names of institutes are kept whatever bytes they have. Two tables whose files say the same are the same. What is not so: the other fields are not escaped, so that for any two entries there is a single row of a CSV file, differing from the first entry in its city, whose source is that of both entries: a city can put a bank with an address of its own into the table.", "quantifier": "all tables, all texts, all files of banks", "why_tests_cant": "Escaping must be right for every text; which texts break out of a literal is a statement about all of them.", "anchors": ["cmd/bankdata_parser/bankdata_parser.go: main, writeDataToGoFile, dataTemplate"]}
{"id": "C74", "title": "The character set middleware sends one byte per character", "statement": "middleware.UTF8Encoding with ISO 8859-1: for every request body that is UTF-8 text of characters up to U+00FF the wrapped transport is asked once with exactly one byte for each character, in order, no matter in which pieces the body is read (pieces may end inside a character). Every other body is refused with an error and the wrapped transport is not asked. The answer is the UTF-8 text of the characters its bytes stand for; errors are passed on; a transport that echoes gives the text back. What is not so: a body that ends in the middle of a character is not refused: the beginning of that character is dropped silently (the encoder is never closed), so that two different bodies are sent alike.", "quantifier": "all bodies, all ways to cut them into pieces, all wrapped transports and answers", "why_tests_cant": "Characters can be cut at any byte of any piece; which bodies are refused is a statement about all byte strings.", "anchors": ["transport/middleware/encoding.go: UTF8Encoding"]}
{"id": "C75", "title": "Generated segment readers read what the segment's elements method lists", "statement": "generator.NewSegmentUnmarshaler and NewVersionedSegmentUnmarshaler: for every Go file in which a segment's method elements() returns a literal of fields of the receiver, the generated UnmarshalHBCI reads element k of a segment into the k-th field of that list, with the type the struct declares, the last field getting all remaining elements; missing and empty elements leave their field as it was, and so do all other fields; the first element that cannot be read ends reading with an error naming its field. Literals with anything but pointer fields of the struct that are named first in their declaration are refused with an error, and so are segments that are not in the file. What a segment writes is read back into the same fields. A versioned reader uses the reader of the version in the header and refuses other versions. Its text registers and tells apart exactly the versions asked for, in their order, and is made exactly if the fields of each can be found. The flag -segment_versions accepts every list of versions; an entry without version or with one that is no number is refused, and the interface is Segment unless exactly one is given. This covers all 37 segments of the library whose readers are generated: each lists pointer fields of its struct, none twice, and the only fields not listed in any of them are four of HITAN; they and the three written by hand are the segments the library can read, and registering them never panics, in whatever order. The readers generated from the sources of HISYN, HIKIM and HITAN are the readers proved about elsewhere. What is not so: if elements() is written in any other way (more than one statement, another result type) the generator makes a reader that reads no field, without an error; fields that elements() does not list are never read (the challenge of a TAN answer, whose text ends up behind the reference); and a versioned reader crashes on a segment without elements where a plain one returns an error.", "quantifier": "all source files and segments, all orders of initialisation, all field lists, all element types and readers, all bytes read, all prior contents of the segment", "why_tests_cant": "The generator must be right for every source file and its output for every segment; tests compare four texts.", "anchors": ["generator/segment_unmarshaler.go: Generate, extractFields, templates", "generator/segment_field_visitor.go: elementVisitor, structFieldVisitor", "cmd/unmarshaler/unmarshaler_generator.go: segmentVersionsFlag.Set", "segment/segment_index.go: KnownSegments", "segment/*_unmarshaler.go"]}
{"id": "C76", "title": "Exactly the segments whose elements have the right form are read", "statement": "For every segment a bank sends that go-hbci knows, whatever values its elements contain: it is read if and only if every element that is not empty has the form laid down for its place (numbers of 64 bits, existing days, times of day, J or N, binary data with a size, groups with as many values as needed and the values of theirs that must be numbers, days, flags); anything else is refused with an error, and a group with a plus sign or an apostrophe in one of its values is refused too. Exceptions that end the program instead: elements without a reader (account limits, certificates, communication parameters, compression methods, accounts in HIKIF), versions of security methods, TAN parameters of one or two flags, PIN and TAN in version 2 of the signature end, and binary data of a negative size or one above 2^48 bytes; they do so exactly if no earlier element is refused. Amounts with other than two values are refused, jobs with the amount of a limit are refused; the country of a bank may be anything; binary data may be shorter than its size. Acknowledgement segments and DIPINS never end the program; each acknowledgement and each of the first three elements of DIPINS must be there and have its form; any number of jobs follows an account in versions 4 and 5.", "quantifier": "all segments of the index in all versions, all contents of their elements (texts, numbers, amounts, binary data, flags, days, times in any place and number), all header positions and references, all parsers of decimal numbers", "why_tests_cant": "Whether a malformed answer is noticed must hold for every content of every element; tests read one well-formed example of some segments.", "anchors": ["segment/*_unmarshaler.go: UnmarshalHBCI", "element/group_data_element_group.go: UnmarshalHBCI", "element/data_element.go: UnmarshalHBCI", "element/bank_parameter_data.go", "element/user_parameter_data.go", "element/pin.go", "element/tan.go", "element/signature.go", "element/encryption.go", "element/acknowledgement.go", "segment/segment_index.go: KnownSegments"]}
{"id": "C77", "title": "Every error of a call names the step at which it failed", "statement": "If a call of a dialog or of a client returns an error, its text is determined by the last message it sent before the error (the closing message of the dialog left aside) and by what became of that message: the next message could not be signed or composed, the transport failed, the answer cannot be read, the bank reports errors in it (all of them follow, one line each), it offers no security function go-hbci has, or it has no customer system ID although one was asked for; the words before the reason say what the message was for. Calls of a client add whether the client, having no bank parameters, was still synchronising, and otherwise fail only because the request is not offered by the bank in a version go-hbci has (the versions of the bank are listed in descending order), because the bank answered the job without the segments asked for or with some of another kind, because SEPA balances came in a version below 7, or because the bank statements in it do not follow MT940. There are no other errors. Each page of SepaAccountBalances fails like a call of its own. What the texts get wrong: failures of an initialisation are labelled DialogEnd; failures of a synchronisation are labelled as failures to extract an encrypted message; Accounts does not give the reason.", "quantifier": "all calls of dialogs and clients, all states, all banks and transports, all histories, all failures of composing and signing, all readers of segments of the form of the library's", "why_tests_cant": "A user reads the error to find out what went wrong; that it cannot mislead must hold for every answer at every step of every call.", "anchors": ["dialog/dialog.go: request, dial, SendMessage, SyncUserParameterData, SyncClientSystemID", "client/client.go: init, Accounts, AccountBalances, AccountTransactions, SepaAccountTransactions, AccountInformation, Status"]}
{"id": "C78", "title": "The scripted HTTP transport plays its payloads in order", "statement": "The MockHTTPTransport of transport/https answers the requests after SetResponsePayloads, whatever was done with it before, one after the other with the registered payloads: each response carries the Base64 form of its payload, and a dialog or the Base64 transport on top of it reads exactly the payload. Requests after the last payload get an error that shows the request and its body; Errors has one empty entry per payload and then these. Payloads registered one by one after a Reset with SetResponsePayload are numbered from 0 and played the same way. Requests are all requests since the last Reset in order, CallCount is their number since the last Reset or registration, Request(i) is the i-th. Exceptions: a transport that was neither reset nor given a payload crashes at the first request, and so does a request without a body after the last payload; Request(i) with i equal to the number of requests crashes where nil is promised; a payload that is registered after responses were used rewinds the script, so that the first response comes again, with nothing left in it if it was read.", "quantifier": "all payloads, all requests, all histories of calls", "why_tests_cant": "A test double has to behave for the tests of every user, in every order of calls.", "anchors": ["transport/https/mock_http_transport.go: RoundTrip, SetResponsePayload, SetResponsePayloads, CallCount, Request, Requests, Error, Errors, Reset", "transport/https/https.go: Do"]}
{"id": "C79", "title": "A reader of messages finds every segment, in order, under its ID", "statement": "Unmarshal on a new Unmarshaler succeeds exactly if the message can be divided into segments, every segment has a readable header and every segment of a known ID and version can be read. Then SegmentsByID gives the segments of an ID in the order of the message, SegmentByID the first of them, MarshaledSegmentsByID and MarshaledSegments the bytes of all segments, known or not. Otherwise it fails as the first segment that cannot be read does; the segments before it are found nevertheless, and all segments as bytes. SegmentPosition of a message that was read is the position stated in a segment that begins with the ID, or -1, and never crashes; if the header of that segment cannot be read it is -1. A message that cannot be divided is an error of Unmarshal and of UnmarshalSegment, even if the segments found before the error have the one asked for. Exceptions: calls on the same Unmarshaler add up, the k-th division of the message into segments appends it once more and Unmarshal then reads all k copies, so that after two calls of Unmarshal every segment is found three times; UnmarshalSegment and SegmentPosition take the first segment whose bytes begin with the ID (HISALS for HISAL), and UnmarshalSegment reads it as the version asked for whatever version it has.", "quantifier": "all messages, all tables of segment readers, all IDs and versions, all histories of calls", "why_tests_cant": "What is found must be right for every message of every bank and every order of calls; tests look up one segment in one message.", "anchors": ["message/unmarshaler.go: Unmarshal, UnmarshalSegment, SegmentsByID, SegmentByID, MarshaledSegmentsByID, MarshaledSegmentByID, MarshaledSegments", "message/segment_extractor.go: Extract, FindSegment, FindSegments", "message/decryption.go: SegmentPosition"]}
{"id": "C80", "title": "The bank parameters of a dialog are those the bank sent", "statement": "A message without the common bank parameters (HIBPA) leaves the parameters of a dialog unchanged. One with them replaces all of them: the common parameters are those of the first HIBPA segment, the supported segments are the IDs and versions of all segments with an ID of more than five letters, in the order of the message, and a job needs a TAN as the last entry for it in the first HIPINS segment says. The parameters kept for a supported segment are those of a segment of that ID and version in the message, never of another version. NeedsTan on the list of jobs gives the flag of the first entry of a job and says whether there is one; it agrees with the map of the dialog for every job that is listed with one flag only. Exceptions: a job listed twice with different flags has the first flag in the list and the last in the map; if a bank offers an ID in several versions, only that of the first segment with a reader has its parameters, the other versions have none although they can be read (with the readers of go-hbci, which know each such segment in one version only, this does not happen: every supported segment it can read has its parameters); a message with HIBPA but without HIPINS drops the jobs learned before.", "quantifier": "all messages, all tables of segment readers that keep the header of a segment, all parameters known before, all lists of jobs", "why_tests_cant": "Which version is offered first and how often a job is listed is the choice of each bank; tests use one message with one version of each segment.", "anchors": ["dialog/dialog.go: parseBankParameterData", "dialog/bank_parameter_data.go: BankParameterData, SegmentParameter", "domain/bank_parameter_data.go: NeedsTan", "message/decryption.go: SupportedSegments, FindSegment"]}
{"id": "C81", "title": "A syntax error says where and why reading a SWIFT dataset stopped", "statement": "Extracting the messages of a SWIFT dataset fails exactly if there is a syntax error, and then the error has the position of the part that cannot be read and the text for that part: no line break at the beginning, a tag that does not start with a digit, a tag that is not enclosed by colons, a carriage return without line feed, or an unexpected end of input. IsUnexpectedEndOfInput is true exactly if reading stopped in a value or after a line break. A dataset that is cut in the first line of a value, after any number of complete fields, is always reported as an unexpected end of input, at the position where the value begins. Exceptions: a dataset cut inside a tag is an error but not reported as an unexpected end of input; a dataset cut directly behind a tag is no error at all, and its message is lost without notice.", "quantifier": "all inputs; all lists of complete fields, all tags and all values without line break and NUL for the cuts", "why_tests_cant": "A bank may split a dataset at any byte; tests cut one message at one place.", "anchors": ["swift/message_extractor.go: Extract, SyntaxError, IsUnexpectedEndOfInput", "token/swift_lexer.go: IsUnexpectedEndOfInput, lexSwiftStart, lexSwiftTag, lexSwiftSyntaxSymbol, lexSwiftAlpha, lexSwiftCharacter"]}
{"id": "C82", "title": "Dates made from times are the day on the calendar there, and a timeframe ends today", "statement": "domain.NewShortDate(t) is the day a calendar in the location of t shows, at midnight UTC, and of a short date it is that date. domain.Date gives the calendar day asked for; days beyond a month and months beyond a year go on counting. TimeframeFromDate of a short date begins with that date and ends with the day it is now in UTC; its end is before its beginning exactly if the date is in the future. Exceptions: the location passed to Date does not matter; TimeframeFromDate does not end with the day it is where the program runs, so that the timeframe from today is empty (it ends the day before it begins) exactly if the local calendar is ahead of the one in UTC: never west of Greenwich, and every day after midnight east of it; String prints the two dates with time of day and zone, not as dates.", "quantifier": "all instants and all locations, all calendar dates, all (also out of range) years, months and days", "why_tests_cant": "Tests run at the time and in the zone of the machine, and the failure shows only in the first hours of a day.", "anchors": ["domain/time.go: NewShortDate, Date, TimeframeFromDate, Timeframe.String"]}
{"id": "C83", "title": "The log switches belong to the whole program, not to a client", "statement": "A debug entry is written exactly if the last call that decided about debug logging turned it on: SetDebugMode, the -debug flag, client.New with its EnableDebugLogging, or the end of WithDebugLogging, which turns it off. At the beginning it is off. An info entry is written exactly if the last SetInfoLog turned it on; at the beginning it is on. No other call writes or changes anything. Inside WithDebugLogging debug entries are written unless something inside turned them off. Exceptions: EnableDebugLogging is not the setting of one client, since making another client decides for both, also if making it fails, so that the PIN of a client with debug logging off is written to the log by its requests once another was made with it on; WithDebugLogging does not restore what was set before, so that the end of an inner one ends the outer one too; after a panic inside it debug logging stays on.", "quantifier": "all histories of calls, to any nesting of WithDebugLogging, all configurations and bank tables", "why_tests_cant": "Tests make one client and look at no log; what is logged depends on the whole history of the program.", "anchors": ["internal/logger.go: SetDebugMode, SetInfoLog, WithDebugLogging, conditionalWriter.Write", "hbci.go: SetDebugMode, SetInfoLog", "client/client.go: New"]}
{"id": "C84", "title": "The text of a status report says what the bank reported", "statement": "String() of a status report of Client.Status names, in this order, whether it is about a message or a segment, the message number and dialog, the segment if there is one, the instant, the code, the data element or none, the bank's text and its parameters, each byte for byte as the bank sent it. It is one line exactly if the bank's texts have no line feeds. Exceptions: unlike those of other acknowledgements its parameters are not quoted, so that a text of the bank may look like a text with parameters, and a parameter with a comma like two parameters.", "quantifier": "all status reports a bank may send, all codes, texts and parameters", "why_tests_cant": "Tests print a report or two; which texts make the line ambiguous or break it is a statement about all texts.", "anchors": ["domain/acknowledgement.go: StatusAcknowledgement.String", "segment/status_protocol.go: Status"]}
{"id": "C85", "title": "A SWIFT tag says what the last text read into it said", "statement": "Unmarshal of an AlphaNumericTag, NumberTag or FloatTag succeeds exactly if the text is a name between two colons followed by a value of the kind: any text, a decimal number with optional sign that fits into 64 bits, a float as Go reads it. It never panics, and if it fails the tag stays as it was. After any texts were read into a tag one after the other, ID, Value and Val give the name (with its colons) and the value of the last one that could be read. Exceptions: if none could, ID, Value and Val panic; a FloatTag refuses every amount as SWIFT writes it, with a comma.", "quantifier": "all texts, all lists of texts read into one tag, the three kinds of tags", "why_tests_cant": "Tests read a few tags once; what a tag says after failed attempts is a statement about histories.", "anchors": ["swift/element.go: AlphaNumericTag, NumberTag, FloatTag", "swift/tag_extractor.go: extractTagElements"]}
{"id": "C86", "title": "The name of a key survives being written and read", "statement": "A key name (country, bank code, user, kind, number, version) that is marshaled and unmarshaled again has the same value, for all texts of Latin-1 characters in which there is no NUL, '+' or ''', syntax characters in the user included, and all numbers that fit into 64 bits. The same holds for one that a bank wrote. Exceptions: the bank code is not unescaped when it is read, so with a syntax character in it (not at its end) it comes back with release characters and is a different bank code; and a name with an empty user or an empty kind can be read, but asking for its value panics.", "quantifier": "all key names, all texts and numbers in them", "why_tests_cant": "Tests write and read one key name of digits and letters; which texts do not survive is a statement about all of them.", "anchors": ["element/signature.go: KeyNameDataElement", "element/group_data_element_group.go: BankIdentificationDataElement.UnmarshalHBCI"]}
{"id": "C87", "title": "PIN and TAN survive being written and read", "statement": "The element of a PIN and a TAN is the two texts with their syntax characters escaped and a colon between them, and it is read back as the same PIN and the same TAN, for all Latin-1 texts without NUL, '+' or ''' whose TAN does not end in ':'. Exception: the element of a PIN without a TAN, which is what a client puts into its messages, is the escaped PIN alone, and the library's own Unmarshal refuses that.", "quantifier": "all PINs and TANs", "why_tests_cant": "Tests write one PIN; that no character changes, and which elements cannot be read, is a statement about all texts.", "anchors": ["element/pin.go: NewCustomSignature, NewPinTan, PinTanDataElement.UnmarshalHBCI"]}
{"id": "C88", "title": "Who signed and when survives being written and read", "statement": "A security identification (sender or receiver of the message, client system ID) that is marshaled and unmarshaled again names the same party and the same client system, for all Latin-1 client system IDs without NUL, '+' or ''' that do not end in ':', and a security date (time stamp or revocation time) the same kind, date and time to the second. Creating one for any other party or kind panics. Exception: with an empty client system ID only the code of the party is written, and the library's own Unmarshal refuses that.", "quantifier": "all client system IDs, all dates of four digit years, all times of day, both parties and both kinds", "why_tests_cant": "Tests write one of each; that every ID, date and time survives is a statement about all of them.", "anchors": ["element/signature.go: NewRDHSecurityIdentification, SecurityIdentificationDataElement.UnmarshalHBCI, NewSecurityDate, SecurityDateDataElement.UnmarshalHBCI"]}

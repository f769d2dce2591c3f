import json
P=[]
def p(title,statement,quantifier,why,anchors):
    P.append(dict(id='C%02d'%(len(P)+1),title=title,statement=statement,quantifier=quantifier,why_tests_cant=why,anchors=anchors))
AS="CIM15/IEC61970/Core/Terminal.py: setConductingEquipment/setTopologicalNode (generated one-to-many setter)"
p("Setting the single end of a one-to-many reference","If x and t are instances of classes whose properties P (single valued) and Q (collection) are each other's inverse, then after `x.P = t` (or `x.P = None`) x.P is t (or None), t.Q is its old content without x followed by x, the collection of the previous owner no longer contains x, and no other property of any object in the model has changed.","every class table, every object graph in which references are mutually consistent, every x, P and t (t may be the current owner)","The effect and the absence of side effects range over all object graphs; a test looks at two or three objects.",[AS,"CIM14/IEC61970/Core/Terminal.py: setTopologicalNode"])
p("Setting a one-to-one reference","After `x.P = y` for a one-to-one association P/Q, x.P is y and y.Q is x, the former partner of x and the former partner of y each have None on their side, and nothing else has changed. `x.P = None` clears exactly the two ends.","every consistent object graph, every x and y (including y already being x's partner)","All combinations of former partners and unrelated objects must be covered.",["CIM14/IEC61970/Core/Terminal.py: setSvPowerFlow","CIM15/IEC61970/Generation/Production/ThermalGeneratingUnit.py: setStartupModel"])
p("add* on a one-to-many collection","`t.addQ(x1,...,xn)` makes t the owner of every xi, moves each out of its former owner's collection, keeps t.Q duplicate free and changes nothing else.","every consistent object graph, every argument list of any length (repetitions allowed)","Argument lists are unbounded and may contain repetitions or objects owned elsewhere.",["CIM14/IEC61970/Core/Terminal.py: addBlock","CIM15/IEC61970/Core/PowerSystemResource.py: addChangeItems"])
p("remove* on a one-to-many collection","`t.removeQ(x1,...,xn)` leaves every xi without owner and out of every Q collection; objects not named keep their owner.","every consistent object graph, every argument list","As for add*.",["CIM14/IEC61970/Core/Terminal.py: removeBlock"])
p("remove* only touches its own collection","`t.removeQ(x)` with x not in t.Q leaves the graph unchanged (or raises).","every consistent object graph","Needs an object owned by someone else; the property is claimed for all of them. (Expected to be false of the code.)",["CIM14/IEC61970/Core/Terminal.py: removeBlock"])
p("References stay mutually consistent over every history","Starting from an empty model, after any sequence of object constructions, single-end assignments, one-to-one assignments, add*/remove* calls and admissible collection assignments, x.P is t exactly when x is in t.Q (one-to-many), x.P is y exactly when y.Q is x (one-to-one), x is in y.Q exactly when y is in x.P (many-to-many), and one-to-many collections contain no duplicates.","every finite history of API calls, of any length, over any class table","It is an invariant over all histories.",["CIM15/IEC61970/Core/Terminal.py","CIM15/IEC61970/Core/PowerSystemResource.py","README.rst: 'Transparent bi-directional reference handling'"])
p("Assigning a one-to-many collection","`t.Q = [x1..xn]` with pairwise distinct xi that are unowned or already owned by t makes t.Q exactly that list, sets each xi.P to t and sets the P of every former member that is not listed to None; nothing else changes.","every consistent object graph, every such list","Lists and former contents are unbounded.",["CIM14/IEC61970/Core/Terminal.py: setBlock"])
p("Assigning a collection takes members over from their former owner","After `t.Q = [x]` with x owned by u, x is no longer in u.Q.","every consistent graph with x owned by u different from t","Universally quantified over graphs. (Expected to be false of the code.)",["CIM14/IEC61970/Core/Terminal.py: setBlock"])
p("add* on a many-to-many collection","`x.addP(y)` with y not yet in x.P appends y to x.P and x to y.Q and changes nothing else.","every consistent graph","All graphs, including self-associations.",["CIM15/IEC61970/Core/PowerSystemResource.py: addScheduleSteps"])
p("remove* on a many-to-many collection","`x.removeP(y)` with y in x.P and no duplicates removes y from x.P and x from y.Q and changes nothing else; when y is not in x.P it raises ValueError and changes nothing.","every consistent duplicate-free graph","All graphs.",["CIM15/IEC61970/Core/PowerSystemResource.py: removeScheduleSteps"])
p("Many-to-many collections hold each partner once","After any sequence of add* calls a many-to-many collection contains each partner at most once.","every history of add* calls","Needs every history. (Expected to be false of the code: adding twice, or from both ends, duplicates.)",["CIM15/IEC61970/Core/PowerSystemResource.py: addScheduleSteps"])
p("A many-to-many collection can be reassigned","`x.P = [..]` on a many-to-many property succeeds whatever the collection held before. (What the code does: it raises AttributeError for every non-empty former collection and leaves all references as they were.)","every graph and every new list","The failure occurs for every non-empty former collection, the claim is about all of them.",["CIM15/IEC61970/Core/PowerSystemResource.py: setScheduleSteps"])
p("Collections of different objects are independent","Adding to one object's collection never changes another object's collection of unrelated members.","every history including assignments of the same list to two objects","Aliasing depends on histories. (Expected to be false when one list is assigned twice; proved for histories that never pass a shared list.)",["CIM14/IEC61970/Core/Terminal.py: setBlock"])
p("A new object is blank","C(UUID=u) for a constructible class has UUID u, every declared attribute at its constructor default, every single reference None, every collection empty and not shared with any other object, and no existing object changes.","every class of every table that constructs, every heap","Every class of the table times every heap.",["CIM15/Element.py","CIM14/IEC61970/Core/Terminal.py: __init__"])
p("Failed assignments are atomic","If `x.P = v` raises, the graph is as before.","every graph and every v","All failing v. (Expected to be false: the field is already assigned when the inverse is missing.)",["CIM14/IEC61970/Core/Terminal.py: setTopologicalNode"])
p("ACLineSegment has one impedance model","SequenceImpedance, PhaseImpedance and PerLengthImpedance of a CIM15 ACLineSegment are views of one reference: at most one of the first two is not None, each equals PerLengthImpedance when not None, assignment through any of them sets it, and constructing with more than one raises ValueError.","every graph and all argument combinations","All argument combinations and graphs.",["CIM15/IEC61970/Wires/ACLineSegment.py"])
p("PerLength*Impedance.LineSegments is the inverse of ACLineSegment.*Impedance","After `z.LineSegments = [s]`, s.PhaseImpedance (s.SequenceImpedance) is z.","every graph","(Expected to be false of the code: the setter writes a private slot nobody reads.)",["CIM15/IEC61970/Wires/PerLengthPhaseImpedance.py: setLineSegments","CIM15/IEC61970/Wires/PerLengthSequenceImpedance.py"])
p("Equipment.OperationalLimitSet add/remove","`e.addOperationalLimitSet(s)` appends s to e.OperationalLimitSet once and makes s refer to e.","every graph","All graphs; CIM15's hand written add* differs from the generated ones.",["CIM15/IEC61970/Core/Equipment.py: addOperationalLimitSet"])
p("Every class named in a package map can be instantiated by the reader","For every entry of every packageMap the class exists in that module and C(UUID=u) succeeds, except exactly the listed classes (CIM15 compound classes not derived from Element, ErpLedBudLineItem, ErpLedgerEntry).","every entry of the 16 package maps","Tests instantiate a handful of the 1,755 entries.",["CIM14/__init__.py: packageMap","CIM15/__init__.py: packageMap"])
p("Every association end has an inverse","For each generated association end (class, property, inverse name) some class of the same table declares the inverse property with the dual multiplicity pointing back, except exactly the listed ends.","all association ends of all 16 class tables","Over 3,500 ends.",["CIM14/*","CIM15/*"])
p("Class metadata agrees with the constructor","The attributes a class declares for serialisation are exactly its value parameters, with the constructor's default values; declared references are its reference parameters; enumerated attributes are attributes; exceptions are exactly the listed ones.","all 1,676 classes","All classes.",["CIM15/IEC61970/WiresPhaseModel/ACLineSegmentPhase.py","CIM15/IEC61970/WiresPhaseModel/EnergyConsumerPhase.py"])
p("packageMap and nsURI must be given together","cimread raises ValueError, without creating or changing any object or dictionary entry, when exactly one of packageMap and nsURI is non-empty.","all argument values, all documents","All argument combinations.",["PyCIM/RDFXMLReader.py: cimread"])
p("CIM version detection","With neither argument given the package map is CIM14's when the document binds prefix cim to CIM14's namespace, with or without trailing '#', and CIM15's in every other case, and elements are recognised in exactly the namespace the document declared followed by '#'.","all namespace maps","All strings.",["PyCIM/RDFXMLReader.py: get_cim_ns","PyCIM/RDFXMLReader.py: get_rdf_ns"])
p("The dictionary returned by cimread","Reading a flat document without error yields exactly the keys of start_dict plus the identifiers of the elements whose class is in the package map.","all flat documents, all start dictionaries","All documents.",["PyCIM/RDFXMLReader.py: cimread"])
p("Objects are of the declared class","Every object cimread creates has the class named by the (last) element with its identifier, and unless the document assigns UUID explicitly its UUID is its key.","all documents","All documents.",["PyCIM/RDFXMLReader.py: cimread"])
p("Forward references resolve","A reference to an object whose element appears later in the document is set exactly as one that appears earlier.","all flat documents, all positions","All document orders.",["PyCIM/RDFXMLReader.py: cimread (two passes)"])
p("Reading leaves references mutually consistent","If all references in a document link compatible ends, then after cimread x.P is t exactly when x is in t.Q for all objects read, starting from a consistent heap.","all documents with compatible references, all consistent start heaps","All documents.",["PyCIM/RDFXMLReader.py: cimread"])
p("First reference wins","A second, different value for a single-valued reference is ignored: the reference keeps the object set first.","all documents","All documents.",["PyCIM/RDFXMLReader.py: cimread"])
p("Attribute conversion","An attribute element sets the attribute to the text converted to the type of the attribute's default: int by decimal value, float by float(), str unchanged, bool True exactly for case variants of 'true' and False for any other text.","all texts, all attributes","All texts.",["PyCIM/RDFXMLReader.py: cimread"])
p("Empty string elements read as the empty string","`<cim:C.name/>` sets name to ''.","all string attributes","(Expected to be false: it becomes the string 'None'.)",["PyCIM/RDFXMLReader.py: cimread"])
p("A malformed number aborts the read","An int or float attribute whose text does not parse makes cimread raise ValueError.","all documents, all positions of the offending element","All documents.",["PyCIM/RDFXMLReader.py: cimread (except TypeError)"])
p("Dangling references are skipped","A reference to an unknown identifier changes nothing and the read continues.","all documents","All documents.",["PyCIM/RDFXMLReader.py: cimread"])
p("Unknown classes are skipped","An element whose class is not in the package map and whose identifier is not otherwise defined changes nothing: the read gives the same result as without it.","all flat documents, any number of such elements anywhere","All documents.",["PyCIM/RDFXMLReader.py: cimread"])
p("Unknown attributes are skipped","A property element the object does not have changes nothing but a counter.","all documents","All documents.",["PyCIM/RDFXMLReader.py: cimread"])
p("Foreign namespaces are ignored","Removing all elements (start and end events) outside the CIM namespace from the event stream does not change the result of cimread.","all event streams","All documents.",["PyCIM/RDFXMLReader.py: cimread"])
p("Reading does not disturb other objects","cimread changes no object that exists before the call unless it is in start_dict or linked to by references.","all documents and heaps","All heaps.",["PyCIM/RDFXMLReader.py: cimread"])
p("Merging into start_dict keeps what was read before","Reading a second file that describes more of an object already in start_dict (rdf:about) keeps the object and its earlier attributes.","all pairs of documents","(Expected to be false: the object is replaced by a blank one.)",["PyCIM/RDFXMLReader.py: cimread (start_dict)"])
p("Nested object elements","Properties following a nested object element are still assigned to the enclosing object.","all documents","(Expected to be false.)",["PyCIM/RDFXMLReader.py: cimread"])
p("Enumerations","A property with an rdf:resource that is not a '#' reference sets the attribute to the text after the last '.', and IndexError is raised when there is no '.' or the resource is empty.","all resource strings","All strings.",["PyCIM/RDFXMLReader.py: cimread"])
p("A many-to-many link given from both ends is recorded once per end","Reading a document that states both x.P->y and y.Q->x leaves y once in x.P and x once in y.Q.","all documents","(Expected to be false.)",["PyCIM/RDFXMLReader.py: cimread","CIM15/IEC61970/Core/PowerSystemResource.py: addScheduleSteps"])
p("Namespace prefix map","xmlns returns, for every prefix declared before the first element closes, the last URI bound to it.","all documents","All documents.",["PyCIM/RDFXMLReader.py: xmlns"])
p("Text escaping is lossless","For every string, the text written for character data contains no '<' or '>' and no '&' other than the start of one of the predefined entities, and XML entity expansion gives the string back.","all strings","All strings.",["PyCIM/SimpleXMLWriter.py: escape_cdata"])
p("Attribute escaping is lossless","As for text, and the output contains neither quote character, so an attribute value can never end early or inject markup.","all strings","All strings.",["PyCIM/SimpleXMLWriter.py: escape_attrib"])
p("Balanced writer calls produce well-formed XML","For every tree of start/data/element/end calls with legal names and characters, the bytes written parse as XML to exactly that tree.","all call trees of any depth and width","All call sequences.",["PyCIM/SimpleXMLWriter.py: XMLWriter"])
p("close(id) closes exactly the elements opened since","w.close(id) leaves exactly id elements open, closing innermost first.","all writer states","All states.",["PyCIM/SimpleXMLWriter.py: XMLWriter.close"])
p("Unbalanced end is rejected","end() with no open element, or end(tag) with a tag different from the innermost open one, raises AssertionError and writes nothing.","all writer states and tags","All states.",["PyCIM/SimpleXMLWriter.py: XMLWriter.end"])
p("Keyword attributes are written","w.start(tag, attrib, **extra) writes the extra attributes.","all calls","(Expected to be false: they are dropped, contrary to the documentation.)",["PyCIM/SimpleXMLWriter.py: XMLWriter.start"])
p("Attribute order is canonical","The bytes written for an element do not depend on the insertion order of its attribute dictionary.","all attribute dictionaries","All permutations.",["PyCIM/SimpleXMLWriter.py: XMLWriter.start"])
p("Character references in the Python 2 us-ascii path are lossless","For every unicode string the fallback through numeric entities expands back to the string.","all strings","(Expected to be false: '&' is escaped twice.)",["PyCIM/SimpleXMLWriter.py: encode_entity, escape_cdata"])
p("Comments are well formed","w.comment(text) produces a well-formed comment for every text.","all strings","(Expected to be false: '--' is not escaped.)",["PyCIM/SimpleXMLWriter.py: XMLWriter.comment"])
p("cimwrite emits one flat element per dictionary entry","The document written is a single rdf:RDF root binding the rdf and cim prefixes, with one child per entry in dictionary order, named after the object's class and carrying the object's UUID as rdf:ID, whose children are exactly: the attributes differing from their default (base class first), all enumerated attributes, and the non-None single references.","all object graphs and dictionaries","All graphs.",["PyCIM/RDFXMLWriter.py: cimwrite"])
p("cimwrite output is well formed","Whenever cimwrite returns, what it wrote parses as namespace-well-formed XML.","all object graphs with XML characters","All graphs.",["PyCIM/RDFXMLWriter.py: cimwrite"])
p("cimwrite is read-only","cimwrite changes no object.","all graphs","All graphs.",["PyCIM/RDFXMLWriter.py: cimwrite"])
p("Round trip","cimread(cimwrite(d)) yields a dictionary with the same keys in the same order, objects of the same classes, the same attribute and enumeration values, the same single references, and one-to-many collections with the same members.","all closed consistent CIM15 object graphs with representable values","All graphs.",["PyCIM/RDFXMLWriter.py: cimwrite","PyCIM/RDFXMLReader.py: cimread"])
p("Many-to-many references survive the round trip","A many-to-many link present before is present after cimread(cimwrite(d)).","all graphs","(Expected to be false: the writer skips collections.)",["PyCIM/RDFXMLWriter.py: cimwrite (FIXME)"])
p("Objects with equal UUIDs","cimwrite followed by cimread keeps every object of the dictionary.","all dictionaries","(Expected to be false when UUIDs collide, e.g. objects built without UUID.)",["PyCIM/RDFXMLWriter.py: cimwrite"])
p("CIM14 objects survive the round trip","A CIM14 object written and read back is a CIM14 object.","all CIM14 graphs","(Expected to be false: the writer always uses CIM15's namespace.)",["PyCIM/RDFXMLWriter.py: cimwrite"])
p("Pretty printing preserves the document","xmlpp changes only text and tails that are blank: tags, attributes, element structure and every non-blank text are as in the source.","all documents","All trees.",["PyCIM/PrettyPrintXML.py: indent"])
p("Pretty printing layout","After indenting a document with only blank text between elements, every element at depth n is preceded by a newline and 2n spaces, and closing tags of non-empty elements line up with their opening tags.","all documents","All trees.",["PyCIM/PrettyPrintXML.py: indent"])
p("Pretty printing is idempotent","Indenting twice gives the same document as indenting once.","all documents","All trees.",["PyCIM/PrettyPrintXML.py: indent"])

# Statements made precise once the code's behaviour was known.
R={}
def r(i,statement,title=None): R[i]=(statement,title)
r("C05","`t.removeQ(x)` with x not in t.Q never raises. If x has no owner the graph is unchanged; if x is owned by another object u, x is detached from u (x.P becomes None, x leaves u.Q) and nothing else changes. (So the natural expectation that remove* only touches its own collection is refuted.)","remove* of an object that is not in the collection")
r("C06","Starting from an empty model, after any sequence of object constructions, single-end assignments, one-to-one assignments, add*/remove* calls and collection assignments (many-to-many: additions of new partners and assignments over an empty collection only; one-to-many: assigned members unowned or already owned) every call succeeds and x.P is t exactly when x is in t.Q (one-to-many), x.P is y exactly when y.Q is x (one-to-one), x is in y.Q exactly when y is in x.P (many-to-many), collections contain no duplicates and no list object is shared.")
r("C08","After `t.Q = [.., x, ..]` with x owned by another object u, x.P is t but x is still in u.Q, so the graph is no longer mutually consistent. (The expectation that x leaves u.Q is refuted.)")
r("C11","`x.addP(y)` with y already in x.P succeeds, appends y to x.P once more and changes nothing else, so the collection holds y twice. (The expectation that each partner is held once is refuted.)")
r("C12","`x.P = v` on a many-to-many property raises AttributeError and changes no reference whenever the collection is non-empty, whatever v is; over an empty collection `x.P = [y1..yn]` with distinct yi sets x.P to that list, appends x to each yi.Q and changes nothing else.")
r("C13","In every consistent graph no two slots hold the same list object. The setter stores the caller's list itself: after `t1.Q = l; t2.Q = l; x.P = t1` with one list l, x is in t2.Q as well although x.P is t1. (The expectation that collections of different objects are always independent is refuted.)")
r("C15","If `x.P = v` on the single end of a one-to-many property raises because v has no Q collection, then x.P is v afterwards, x has left its former owner's collection, and nothing else has changed. (The expectation that a failed assignment leaves the graph as it was is refuted.)","Failed assignments are not atomic: exact effect")
r("C17","After `z.LineSegments = [s1..sn]` on a PerLengthPhaseImpedance or PerLengthSequenceImpedance with empty LineSegments, z.LineSegments is that list but si.PhaseImpedance (si.SequenceImpedance, si.PerLengthImpedance) is what it was before, for every graph. (The expectation that it is z is refuted.)")
r("C18","`e.addOperationalLimitSet(s)` appends s to e.OperationalLimitSet (again if it is there already), sets the plain attribute s.Equipment to e and changes nothing else; `e.removeOperationalLimitSet(s)` removes the first s and sets s.Equipment to None, raising ValueError after setting it when s was not in the collection.")
p("Adding twice and removing once","After x.addP(y); x.addP(y); x.removeP(y) on a many-to-many association, y is in x.P but x is not in y.Q.","every consistent duplicate-free graph with y not in x.P","The inconsistency only shows on the far end after a particular call sequence.",["CIM15/IEC61970/Core/PowerSystemResource.py: addScheduleSteps, removeScheduleSteps"])
r("C24","Reading a document without error yields a dictionary whose keys are those of start_dict, in their order, followed by the new identifiers of the elements whose class is in the package map, in the order in which those elements close.")
r("C26","When cimread reaches a reference element of an object, to an identifier declared anywhere in the document, before or after, the reference is resolved to the object of the last declaration and the property's own assignment or add method takes effect exactly: single ends are assigned when unset, collections are appended to, and nothing else changes.")
r("C28","When cimread reaches a reference element for a property of the object that already holds an object, the element changes nothing and the read continues: the reference keeps the object set first.")
r("C29","When cimread reaches an attribute element, the attribute becomes the text converted to the type of its current value (its default, unless set before): int by decimal value of Python integer literals, float by float(), str unchanged, bool True exactly for case variants of 'true' and False for any other text; nothing else changes. An attribute that is None is left alone.")
r("C30","`<cim:C.name/>` sets a string attribute to the text 'None' and leaves int, float and bool attributes unchanged. (The expectation that it sets the empty string is refuted.)","Empty attribute elements")
r("C32","A document with a reference to an identifier that is neither in start_dict nor declared reads exactly as the document without it.")
r("C34","A document with a property element that the object at that point does not have, or with a text or reference for the name of one of its methods, reads exactly as the document without it.")
r("C35","Removing all elements (start and end events) outside the CIM namespace from the event stream does not change the result of the read, for given namespaces and a root element outside the CIM namespace.")
r("C36","cimread, whether it succeeds or raises, changes no object that exists before the call unless it is in every set of objects that contains those of start_dict and is closed under references.")
r("C37","Reading a file that declares an identifier already in start_dict (rdf:ID or rdf:about) replaces the entry by a new object; every attribute the file does not state has its default there. (The expectation that the earlier object and its attributes are kept is refuted.)","Merging into start_dict replaces objects")
r("C38","The start of an element nested in an object's element is passed over, so properties inside go to the enclosing object; at the end of a nested element with an identifier the enclosing description ends, and the properties after it are assigned to nothing. (The expectation that they go to the enclosing object is refuted.)")
r("C40","Reading a many-to-many reference appends the object to the collection even if it is there already, and appends the owner to the other end if it is not there. So a document stating both x.P->y and y.Q->x leaves x twice in y.Q. (The expectation that each is recorded once is refuted.)","A many-to-many link given from both ends is recorded twice at one end")
r("C47","w.start(tag, attrib, **extra) and w.element(tag, text, attrib, **extra) write the same bytes and leave the same state as without the keyword arguments. (The expectation that keyword attributes are written is refuted.)","Keyword attributes are ignored")
r("C49","For a unicode string of XML characters up to U+FFFF, the us-ascii path of escape_cdata in Python 2 expands back to the string exactly when the string is ASCII or contains none of & < >; otherwise predefined entities are escaped twice. (The expectation that it always does is refuted.)")
r("C50","w.comment(text) is well formed exactly when text contains no double hyphen; otherwise the document is not well formed. (The expectation that it always is well formed is refuted.)")
p("White space in text and attributes","An element written with text and attributes parses to the same element, except that line ends in text become newlines and tabs and line ends in attribute values become spaces; so text survives exactly when it has no carriage return and an attribute value exactly when it has no tab, newline or carriage return.","all texts and attribute dictionaries of XML characters","The loss needs particular control characters in particular places.",["PyCIM/SimpleXMLWriter.py: escape_cdata, escape_attrib, XMLWriter.element"])
p("Pretty printing is canonical","Documents that differ only in blank text between tags are indented to the same document.","all pairs of element trees with the same content","The pairs are infinite in number and the places of the blank text arbitrary.",["PyCIM/PrettyPrintXML.py: indent"])
p("Pretty printing does not change what is read","Reading the indented document gives exactly the result of reading the document, for given namespaces and package map, whenever property elements have no element children.","all element trees, class tables, dictionaries and heaps","The reader looks at the text of property elements only; no finite set of documents shows that the inserted blanks never reach an attribute.",["PyCIM/PrettyPrintXML.py: indent","PyCIM/RDFXMLReader.py: cimread"])
r("C58","indent changes only blank text and tails between tags: tags, attributes, element structure, every non-blank text and every text of an element without children are as in the source.")
r("C51","cimwrite returns exactly when every dictionary value is a CIM object whose UUID is a string, whose attributes have values with a text and whose single references are None or objects with a UUID; the document written is then a single rdf:RDF root binding the rdf and cim prefixes, with one child per entry in dictionary order, named after the object's class and carrying the object's UUID as rdf:ID, whose children are exactly: the attributes differing from their default (base class first), all enumerated attributes, and the non-None single references.")
r("C52","What cimwrite writes is well-formed, and namespace-well-formed, XML exactly when all strings in it consist of XML characters; a reader then sees them with normalised line ends (and white space, in attribute values). (The expectation that it always is well formed is refuted: control characters in a name are written as they are.)","When cimwrite output is well formed")
r("C53","cimwrite, whether it returns or raises, changes no object.")
r("C54","Reading what cimwrite wrote, with the package map the objects come from (for CIM15 without any argument), yields a dictionary with the same keys in the same order, new objects of the same classes, the same attribute and enumeration values (up to the sign of zero), the same single references (None for objects outside the dictionary) and one-to-many collections with exactly the corresponding members, in a consistent graph. The dictionary must map UUIDs to their objects, and values must have the type of their default, be made of characters XML preserves and (floats) be read back by float().")
r("C55","After cimread of what cimwrite wrote, all collections other than those of one-to-many associations are empty, in particular both ends of all many-to-many associations. (The expectation that many-to-many links survive is refuted.)","Many-to-many references are lost in the round trip")
r("C56","Reading back what cimwrite wrote keys objects by their UUIDs, whatever the dictionary keys were: the keys are the UUIDs of the objects whose class name is in the package map, each once, and of several objects with the same UUID the class of the last counts. Whenever two entries share a UUID the result has fewer objects. (The expectation that every object is kept is refuted.)","Objects with equal UUIDs are merged")
r("C57","Whatever classes the objects of a dictionary have, cimread without arguments makes CIM15 objects of what cimwrite wrote: of the CIM15 class with the same name, and nothing for objects whose class name CIM15 does not have. (The expectation that CIM14 objects come back as CIM14 objects is refuted.)","CIM14 objects come back as CIM15 objects")
p("Keyword arguments in any order","A constructor call with keyword arguments has the same result and the same effect on every object whatever the order in which the keywords are written, although classes initialise in the order of their own statements, base class last.","all class tables, classes, argument lists and heaps","All permutations of all argument lists over all classes.",["CIM14/IEC61970/Core/Terminal.py: __init__","CIM15/Element.py"])
p("Positional arguments","Positional arguments of a constructor are the keyword arguments for the parameters of the class, then of its base class, and so on up to Element, in order; giving more arguments than parameters, or a parameter both ways, raises. Exceptions are exactly the eight CIM15 classes that repeat a parameter of a base class.","all classes of all class tables, all argument lists, all heaps","Every class and every split between positional and keyword arguments.",["CIM14/IEC61970/Core/Terminal.py: __init__ ( *args, **kw_args)","CIM15/Element.py"])
p("Unknown keyword arguments","A constructor call with a keyword that no class of the chain takes never returns. For classes derived from Element it raises TypeError only when Element is reached, so all references given by the other arguments have been set: the heap is that of the call without the keyword except that the new object's UUID is not set. (The expectation that a failed construction leaves no trace is refuted.)","all classes of all class tables, all arguments and heaps","All combinations of arguments with which the rest of the call succeeds.",["CIM14/IEC61970/Core/Terminal.py: __init__","CIM15/Element.py"])
p("Arguments for a repeated parameter are lost","For the eight CIM15 classes that take a collection parameter which a base class takes too, C(n=[y1..yk]) returns an object whose collection n is empty while every yi refers to it; no other object changes. (The expectation that the collection holds the arguments, and that references stay mutual, is refuted.)","the eight classes, all lists of distinct objects, all heaps","Needs the one parameter of a class of a thousand that a base class resets, with every list of members.",["CIM15/IEC61970/Wires/ProtectedSwitch.py: __init__","CIM15/IEC61970/Core/ConductingEquipment.py: __init__","CIM15/IEC61970/Graphics/VisibilityLayer.py: __init__"])
p("What a document says","An element of the CIM namespace is an object exactly when it has rdf:ID, or else rdf:about, whose value without its first character is the identifier; it is a property otherwise, named by the part of its tag after the last dot. The declarations of a document are its closed object elements with a class in the package map, in order, the last one of an identifier counting; property elements between the tags of an object element are applied to the object of that identifier.","all elements, documents, package maps","Tags, attributes and nesting positions are unbounded.",["PyCIM/RDFXMLReader.py: cimread (lines 83-112, 124-150, 164)"])
p("Attribute access","Every class of every table has exactly one chain of base classes; a property is found on the first class of the chain that defines it; reading x.P changes nothing and yields what is stored (for ACLineSegment.PhaseImpedance and SequenceImpedance: the impedance when it is of the right class, None otherwise); after x.P = w on the single end of an association, x.P is w.","all classes of all tables, all heaps and objects","All classes and object graphs.",["CIM14/IEC61970/Core/Terminal.py: getTopologicalNode","CIM15/IEC61970/Wires/ACLineSegment.py: getPhaseImpedance"])
p("Elements are read only in the namespace expected","A document none of whose elements is in the namespace cimread uses reads as empty: without arguments that namespace is what the prefix cim is bound to, with # added when it does not end in one, so a document whose cim namespace does not end in # is read as empty and no error is raised; given as an argument, nsURI gets # added always, so an nsURI that ends in # finds nothing.","all documents, dictionaries and heaps","The failure is silent and the namespaces are arbitrary.",["PyCIM/RDFXMLReader.py: cimread (lines 61-70), get_cim_ns"])
p("Text where a reference is expected","When cimread reaches an element with text instead of rdf:resource for a property that holds None, or an element without text for a collection, it changes nothing. Text for a one-to-many collection detaches all its members and raises AttributeError; for a many-to-many collection it raises AttributeError and changes nothing. For a single reference that is set the read raises, or keeps the reference, or replaces it by a new object of the same class. (The expectation that such text is ignored is refuted.)","all class tables, documents and object graphs","Depends on the state of the property when the element is reached.",["PyCIM/RDFXMLReader.py: cimread (lines 164-203)"])
p("Documents that are not well formed","Reading a source with an XML error always raises; no object that existed before changes, not even those of start_dict; the dictionary start_dict then holds blank objects for the elements closed before the error, in place of its former entries.","all sources with an error, all arguments and heaps","The error may occur anywhere in the file.",["PyCIM/RDFXMLReader.py: cimread (lines 74-112)"])
p("Reading a document again","Reading a document a second time with the first result as start_dict yields the same keys with all new objects, and changes none of the objects of the first reading; more generally a document that declares every identifier of start_dict changes no object that exists.","all documents, class tables and heaps","All documents.",["PyCIM/RDFXMLReader.py: cimread"])
p("Collections without add method","The collections of ProtectionEquipment.ProtectedSwitches, DynamicsMetaBlockReference.MetaBlock and the ENTSO-E Dynamics class Thing are plain lists: a reference element that resolves raises AttributeError and changes no object, text replaces the list by the list of its characters. These are all the collections of all class tables without an add method.","all class tables, documents and object graphs","Eighteen collections among thousands; the exception ends the read.",["PyCIM/RDFXMLReader.py: cimread (lines 166-203)","CIM14/IEC61970/Protection/ProtectionEquipment.py"])
p("Assigning a property to itself","x.P = x.P moves x to the end of its owner's collection when P is the single end of a one-to-many association, changes nothing when P is one-to-one or a one-to-many collection. (The expectation that it never changes anything is refuted.)","all class tables, consistent object graphs and objects","The order of the collection changes only when the object is not its last member.",["CIM14/IEC61970/Core/Terminal.py: setConnectivityNode, setSvPowerFlow","CIM14/IEC61970/Core/ConnectivityNode.py: setTerminals"])
p("Lists held by the caller","A list obtained from a one-to-many collection t.Q is t.Q itself until some member leaves t: an object joining t is appended to the held list; when a member leaves, t gets another list and the held one keeps the member. A list obtained from a many-to-many collection stays the collection throughout add and remove calls.","all class tables, consistent object graphs, objects and new values","Aliasing between a caller's list and the object cannot be seen in any one value.",["CIM14/IEC61970/Core/Terminal.py: setConnectivityNode","CIM15/IEC61970/Core/PowerSystemResource.py: addScheduleSteps, removeScheduleSteps"])
p("Loops over collections","for x in t.Q: t.removeQ(x) empties a one-to-many collection and clears all its members' references; the same loop over a many-to-many collection leaves every second partner, linked as before, and unlinks the others; for y in x.P: x.addP(y) over a nonempty many-to-many collection does not end. (The expectation that the removing loop empties a many-to-many collection is refuted.)","all class tables, consistent object graphs without repeated partners, collections of any length","Collections of every length.",["CIM14/IEC61970/Core/ConnectivityNode.py: removeTerminals","CIM14/IEC61970/SCADA/CommunicationLink.py: addRemoteUnits, removeRemoteUnits"])
p("What leaves no trace in the file","What cimwrite writes, and whether and how it raises, does not depend on the contents of any collection nor on the keys of the dictionary: adding to and removing from a many-to-many collection changes nothing in the file, and two states in which objects have the same classes, attributes and single references give the same document.","all class tables, dictionaries, encodings and pairs of heaps","Independence is a statement about pairs of states.",["PyCIM/RDFXMLWriter.py: cimwrite (lines 65-101)"])
p("What is left when cimwrite raises","When cimwrite raises, the text written up to then is not well-formed XML, whatever the reason and wherever it happens; so the file is an XML document exactly when cimwrite returned and all strings consist of XML characters.","all class tables, dictionaries and heaps, all failures","The failure can happen at any attribute of any object.",["PyCIM/RDFXMLWriter.py: cimwrite","PyCIM/SimpleXMLWriter.py: start, end, close"])
p("Skipped objects are reported","cimread reports the object elements whose tag is not in the package map, each once, with tag and identifier and in document order (up to the point where it stops, all of them when it returns). The second pass reports the object elements outside known objects whose identifier is not in the dictionary; in flat documents these are the same elements once more, except those whose identifier belongs to something else in the dictionary.","all package maps, documents, dictionaries and heaps; the last part for the 16 class tables","The unknown objects can be anywhere, in any number, and reading can stop anywhere.",["PyCIM/RDFXMLReader.py: cimread (lines 96-102, 132-140)"])
p("Dangling references are reported","The message about a missing referenced object appears for a class and an identifier exactly as often as reading reaches a reference with this identifier, at an existing attribute of an object of this class, while the dictionary has no such key: never for a reference that resolves, also when reading stops with an exception.","all class tables, documents, dictionaries and heaps","Counts messages against positions of arbitrary documents.",["PyCIM/RDFXMLReader.py: cimread (lines 184-192)"])
p("Unknown attributes are counted","When cimread returns, the number reported for a text \"'C' has not attribute 'a'\" is the number of property elements a reached in objects of class C that have no such attribute; there is at most one message for each text and its number is positive.","all class tables, documents, dictionaries and heaps","Counts occurrences in arbitrary documents.",["PyCIM/RDFXMLReader.py: cimread (lines 152-160, 217-220)"])
p("The summary of a read (expectation that it counts created objects refuted)","The log begins with the START message; it ends with the counts of unknown attributes, one message with the number of keys of the returned dictionary, and the END message, when cimread returns; when it raises there is none of these. The number is that of the distinct identifiers, those of the given dictionary included, not that of the objects created.","all class tables, documents, dictionaries and heaps, all arguments","When the summary appears depends on every possible failure.",["PyCIM/RDFXMLReader.py: cimread (lines 54, 217-227)"])
p("Namespaces and versions reported (expectation that unsupported versions are reported refuted)","Without arguments, cimread reports a missing rdf or cim declaration exactly when there is none before the first closed element, and an undetected version exactly when the declared namespace is that of neither CIM14, CIM15 nor CIM16; with packageMap and nsURI given it reports nothing about cim. A CIM16 document is read with the classes of CIM15 and nothing is reported.","all sources, dictionaries and heaps","All namespace declarations in all positions.",["PyCIM/RDFXMLReader.py: get_rdf_ns, get_cim_ns (lines 251-292)"])
p("A quiet log (expectation that nothing was lost refuted)","When cimread returns, nothing but progress was reported exactly when every object element has a known class and a key, every property reached exists and every reference reached resolves. Still a second reference for a single reference that is set, or a text for a property that is None or for the name of a method, changes neither the result nor the log.","all class tables, documents, dictionaries and heaps","Relates the whole log to the whole document.",["PyCIM/RDFXMLReader.py: cimread"])
p("Attributes after a whole document","When cimread returns, an ordinary attribute of an object the document describes has the value that the elements about it, in document order, make of the default of the constructor (the identifier for UUID): other elements, objects, dictionaries and heaps have no influence. For a string the last text stays.","the 16 class tables; all documents, dictionaries and heaps; attributes about which no element refers to an object","The other content of the document is arbitrary and comes in between.",["PyCIM/RDFXMLReader.py: cimread (lines 78-215)"])
p("References after a whole document","When cimread returns from a compatible document that does not name two objects for one single reference, each single reference stated at either end, directly or by an alias, is the object named; those not stated are None; those of objects there were before stay; and each collection has exactly the members it had and those stated at either end, those of one-to-many associations once.","the 16 class tables; all compatible coherent documents that state single references only of objects they describe, all consistent heaps","A statement about arbitrarily many objects whose references are resolved in one pass over arbitrarily ordered elements.",["PyCIM/RDFXMLReader.py: cimread (lines 78-215)"])
p("Order of a document (expectation that it never matters refuted)","Two documents that describe the same objects and make the same statements about each attribute in the same order are both read or both not, and give the same identifiers with objects of the same classes, equal attributes, corresponding single references and corresponding members of collections: the order of the objects and of the properties of an object does not matter. Of two objects named for one single reference the first is taken, and how often a many-to-many collection has a member depends on the order.","the 16 class tables; documents as for C88 with elements in any order; all consistent heaps","All permutations of all documents.",["PyCIM/RDFXMLReader.py: cimread (lines 78-215)"])
p("When reading succeeds","A document that parses, whose classes can be instantiated, whose statements are about objects it describes and whose references are to ends of associations is read without an exception exactly when the elements about each attribute in turn give it a value; with references only it always is.","the 16 class tables; all compatible documents, dictionaries and consistent heaps","Success for all documents of unbounded size.",["PyCIM/RDFXMLReader.py: cimread (lines 78-215)"])
p("A second export (expectation that it always equals the first refuted)","Exporting a graph, reading the file and exporting again gives the same text if the references of the objects lead to exported objects; in general exactly the references to other objects are missing from the second text; from then on the text stays the same over any number of further round trips.","the 16 class tables; portable dictionaries (C54) on all consistent heaps; all consistent memories of the reading processes; any number of round trips","All graphs and unbounded repetition.",["PyCIM/RDFXMLReader.py: cimread","PyCIM/RDFXMLWriter.py: cimwrite"])
p("A model in several files (expectation that the order of the files does not matter refuted)","Reading a model from several files, each read starting from the dictionary of the one before, gives the same identifiers, classes, attributes, references and members as reading one file with all the descriptions, if references lead to objects of the same file or an earlier one and no file states a single end of an object of another; and if the one file is read without an exception so are the parts. With the files in another order references can be lost without any exception.","the 16 class tables; all sequences of files of distinctly identified descriptions meeting the conditions; all consistent memories","All models, all ways of cutting them into any number of files.",["PyCIM/RDFXMLReader.py: cimread"])
p("Taking an object out of a graph (expectation that it always works refuted)","A client that clears the ends of an object in any order (None to single ends, [] to one-to-many collections, remove* of all members of many-to-many collections) gets no exception and removes exactly the references from the object and to it: its ends are empty, every other end has lost it and nothing else, and nothing refers to it any more. If a partner lists it twice it is still listed afterwards.","all class tables without self-inverse ends; all consistent heaps with partners listed once; all objects with their slots; all orders","All graphs, all objects with dozens of ends, all orders of clearing.",["CIM14/IEC61970/Core/Terminal.py: Terminal.setConnectivityNode, setSvPowerFlow, setMeasurements","CIM15/IEC61970/Core/PowerSystemResource.py: removeReportingGroup"])
p("Exporting what was read (expectation of the same text refuted)","What cimwrite exports after cimread does not depend on the order of the objects and properties of the document, nor on whether it was read in one piece or cut into files: the two exports both return and contain the same descriptions, in the orders of the two dictionaries. The texts are in general different.","all class tables; all documents that say the same and are read without exception; all start heaps; all cuttings into files; all texts","All reorderings and all cuttings of all documents.",["PyCIM/RDFXMLReader.py: cimread","PyCIM/RDFXMLWriter.py: cimwrite"])
p("References are what the history makes (expectation that assignments can be undone refuted)","After any history of object creations, assignments, add* and remove* calls the references of the graph are exactly those of a table to which every statement makes one simple change: a single end is put, a pair is made and its former partners are released, pairs are added or taken out. A creation makes an object without references and then the assignments of the references given to the constructor, class by class along the base classes. In particular a single reference has the value last assigned to it, whatever was done to other objects. Assigning the former value undoes an assignment up to the order in the collections. On one-to-one ends that holds if no partner is taken away, and is refuted otherwise.","all class tables; all consistent start graphs; all histories of any length whose statements are admissible; all objects and ends","All interleavings of statements about all associations.",["CIM14/IEC61970/Core/Terminal.py: ConnectivityNode setter, addTerminals, removeTerminals","CIM15/IEC61970/Core/PowerSystemResource.py: addX, removeX of many-to-many collections"])
p("Order of collections after reads (expectation that a round trip keeps it refuted)","After reading a document every collection holds exactly what it held before, followed by what the statements bring in document order: a single reference adds its object unless it is there already, a statement of a one-to-many collection moves the member to the end, a statement of a many-to-many collection adds the member again. New members stated by single references only are in the order of their first statement. After cimwrite and cimread the members of every collection are in the order of the dictionary, whatever their order was before; that the order survives is refuted.","all class tables; all compatible documents that do not contradict themselves; all start graphs; for the round trip all portable graphs","Order and multiplicity for every interleaving of statements of both ends.",["PyCIM/RDFXMLReader.py:125-205 cimread second pass","CIM14/IEC61970/Core/ConnectivityNode.py: addTerminals","CIM15/IEC61970/Core/Terminal.py: ConnectivityNode setter"])
p("Exports are coherent documents that say what the graph holds","The document that cimwrite writes for a portable graph is compatible with the classes, does not contradict itself, describes exactly the objects of the dictionary, and the references it states between them are exactly the single references of the graph. No member of a many-to-many collection is stated. So every theorem about reading such documents applies to it.","all class tables; all portable graphs and encodings","All graphs; statements of all objects taken together.",["PyCIM/RDFXMLWriter.py:45-110 cimwrite","PyCIM/RDFXMLReader.py:31-226 cimread"])
p("A model exported in several files (expectation that they can be read in any order refuted)","The objects of a graph are dealt out to several dictionaries and each is exported to a file of its own. If single ends lead to objects of the same dictionary or an earlier one, one-to-one partners are in the same dictionary, and the files are read in that order, each with the dictionary of the read before as start_dict, every read returns and the result has the objects of all dictionaries in their order: classes, attributes, single ends and members of one-to-many collections across all files. In another order references between files are lost without an exception.","all class tables; all portable graphs, all ways of dealing them out that meet the condition; any number of files, all consistent memories of the reader","All graphs and all ways of cutting them; the losing order is silent.",["PyCIM/RDFXMLWriter.py:45-110 cimwrite","PyCIM/RDFXMLReader.py:31-226 cimread with start_dict"])
p("An export read with other classes (expectation for all tables refuted)","A graph is exported with the classes of one package and read with the package map of another whose classes of the same names have at least the same attributes with the same defaults and the same properties. Each object comes back under its identifier as an object of the class of the same name with its attributes, single ends and one-to-many collections; attributes and ends that only the class of the reader has are as in a new object. The condition holds for the CDPSM profiles balanced, connectivity and geographical of CIM15 with CIM15 and for the state variables and topology profiles of CPSM and ENTSO-E with CIM14, and apart from identity for no other table with CIM14 or CIM15. In particular cimread without arguments restores exports of those three profiles with the classes of CIM15. Exports of other tables can lose objects that way: a TransformerWinding of CIM14 is dropped.","all pairs of class tables in this relation; all portable graphs; all consistent memories of the reader","All graphs; the relation is a statement about every class of both tables.",["PyCIM/RDFXMLWriter.py:45-110 cimwrite","PyCIM/RDFXMLReader.py:31-226 cimread","PyCIM/CIM15/__init__.py and the __init__.py of the profile packages"])
p("Assigning the collection of another object (expectation refuted)","`t.Q = u.Q` for one-to-many collections makes t.Q the very list of u: every member's P becomes t, members that t had before lose their P, u.Q still holds the members, and from then on `z.P = t` adds z to u.Q too. For an empty many-to-many collection `t.Q = l` gives every member of l the object t in the collection of its other end unless it is there; if l is itself such a collection, l grows by t while it is assigned and t is treated as a member. (The expectations that the assignment copies the collection and that it leaves the assigned list as it was are refuted.)","all consistent graphs for one-to-many; all heaps in which the members have lists at their other ends for many-to-many","All graphs and lists; the loop runs over a list that its own body may extend.",["CIM14/IEC61970/Core/Terminal.py:101-123 setConnectivityNode, setBlock","CIM15/IEC61970/Core/PowerSystemResource.py:125-132","CIM15/IEC61970/Informative/InfWork/CUGroup.py"])
p("An export is read back without complaints; the report of cimwrite (expectations refuted)","A document whose objects have classes of the package map and are closed, and whose statements are about attributes of the classes, is read with exactly the two messages of the summary if and only if every reference is to an object. So an exported graph is read back with exactly the start message, 'Created n CIM objects' for the n exported ones, and the end message, if and only if everything the exported objects refer to is exported. cimwrite returns None, logs one informational message with the number of object elements of the document it wrote, and logs nothing when it raises. (That every export is read back without complaints, that cimwrite returns a boolean as documented, and that the numbers reported by cimwrite and cimread agree are refuted.)","all documents and heaps of all packages; all portable graphs; all calls of cimwrite","All documents, graphs and dictionaries; tests look at objects, not at the log.",["PyCIM/RDFXMLReader.py:96-102, 132-140, 152-192, 216-227","PyCIM/RDFXMLWriter.py:34-109 cimwrite"])
p("File objects as source (expectations refuted)","A file object that has seek and is at its start is read exactly like a path with the same content. At another position the namespaces are looked for in what follows the position (an error there is raised, nothing changes), while the objects are read from the start of the file. A read that returns leaves the file at its end, where a further read raises ParseError and changes nothing; so does reading a buffer that cimwrite has just filled; after seek(0) it is read, with the copies of C54. A file object without seek can never be read: the read raises as if the document broke off at its end. (The documented support of file-like objects, and that a file object can be read twice, are refuted.)","all texts, positions, arguments and heaps; all parsers that reject the empty text, and any block size of iterparse","All positions and contents of a stream and every way the parser buffers it.",["PyCIM/RDFXMLReader.py:31-34, 61, 75, 115-119 cimread","PyCIM/RDFXMLReader.py:230-248 xmlns"])
p("Objects described a second time (expectations refuted)","Where a document describes an identifier of the dictionary again, the dictionary gets a new object of the class stated there. The former object is no longer listed; it keeps its class and plain attributes, single ends that referred to it still do, and no object created by the read refers to it or has it in a collection. An element whose class the package map does not have changes the listed object in place: it keeps its class and takes the values stated for its attributes. cimwrite cannot tell: graphs that differ only in which object of an identifier is referred to have the same export, so the export is that of the graph in which the single ends have been assigned the listed objects, and reading it back gives a copy of that graph. (That descriptions are merged, that references of listed objects still lead to listed objects, and that elements of unknown classes have no effect, are refuted.)","all package maps, documents, dictionaries and heaps; coherent and compatible documents for the replacement; all graphs that sequences of such assignments lead to","All incremental models and all graphs around the replaced object.",["PyCIM/RDFXMLReader.py:76-110, 118-215 cimread","PyCIM/RDFXMLWriter.py:38-134 cimwrite","CIM15/IEC61970/Generation/Production/GeneratingUnit.py"])
p("The order of assignments (expectations refuted)","A client program that gives values to attributes and to single ends of one-to-many associations, each at most once, succeeds whatever the order of its statements and whichever statement it uses for each (assignment of the end or of another name of it, add* or remove* at the other end): all objects end up with the same values and the same members in every collection. Each collection has its former members that were given no value, in their order, followed by those that were given its owner, in the order of the statements. (That the order cannot be seen in the collections, and that it does not matter for one-to-one ends either, are refuted.)","all class tables, consistent graphs and programs of such statements, and all permutations of them","All orders of a program.",["CIM14/IEC61970/Core/Terminal.py","CIM14/IEC61970/Core/ConnectivityNode.py","CIM15/IEC61970/Wires/ACLineSegment.py"])
p("Importing the modules of CIM14 and CIM15 (expectation refuted)","Whatever modules have been imported before and in whatever order (all of them successfully), each of the 1893 modules can be imported, except the package CIM14.IEC61970.Dynamics and the modules in it while CIM14.IEC61970.Wires is not imported, and likewise CIM14.ENTSOE.Dynamics.IEC61970.Dynamics and its Wires: there the import raises ImportError. An import that succeeds loads exactly the modules that the module needs, directly or indirectly, leaves no module half imported, and every name is bound to the class it means; the package that a package map gives for a tag has, under that tag, the class with the dotted name of the class table. (That every module can be imported first is refuted: CIM14.IEC61970.Dynamics cannot.)","all modules of CIM14 and CIM15, all sequences of successful imports before, all package maps and tags","The order of imports made before is arbitrary; the circular imports go wrong only in some of them.",["CIM14/IEC61970/Dynamics/__init__.py","CIM14/IEC61970/Dynamics/RotatingMachine.py","CIM14/IEC61970/Wires/__init__.py","CIM14/IEC61970/Wires/SynchronousMachine.py","CIM14/ENTSOE/Dynamics/IEC61970/Dynamics/__init__.py","PyCIM/RDFXMLReader.py"])
p("Reading depends on what is imported (expectation refuted)","cimread imports the packages of the objects in document order. Whatever modules have been imported before, if every object of a class for dynamics comes when the wires that go with it are imported (before the call, or needed by the package of an object before it), the call has the same result as if there were no imports, and afterwards everything that the packages need is imported. Otherwise the call ends with ImportError at the first object that comes too early (unless the class of an object before it refuses to be made): the dictionary then holds the objects before it, without properties. Only the maps of CIM14 and of the ENTSO-E dynamics profile have such classes; with any other map, or when both packages of wires have been imported before, no document depends on the imports. (That the result depends on the document alone is refuted: a CIM14 document with one RotatingMachine cannot be read in a fresh interpreter.)","all documents, maps, dictionaries, object graphs and sequences of successful imports before the call","The outcome depends on the order of the objects in the document and on the imports the program made before.",["PyCIM/RDFXMLReader.py","CIM14/IEC61970/Dynamics/__init__.py","CIM14/IEC61970/Wires/__init__.py","CIM14/ENTSOE/Dynamics/IEC61970/Dynamics/__init__.py","CIM14/__init__.py"])
p("Failed imports leave nothing half done (expectation refuted)","Whatever modules have been imported before, with or without success, importing a module of CIM14 or CIM15 either loads it or ends with ImportError, and takes no loaded module away. Every module that is then loaded is complete: each name it imports or defines is bound to the class it means, and the modules it imports from are loaded. So a tag leads to the class of the class table or to ImportError, never to another class or another exception; and a call of cimread has the result it would have without imports or ends with ImportError at an object, when the dictionary holds the objects before it, without properties. (That a failed import fails again until what it lacked is imported is refuted: the second import CIM14.IEC61970.Dynamics succeeds although CIM14.IEC61970.Wires is still not loaded, whereas for the ENTSO-E dynamics profile the second one fails too.)","all sequences of imports, failed or not, before the call; all modules, tags, documents, maps, dictionaries and object graphs","What a failed import leaves in sys.modules depends on where in the cycle of imports it failed; tests start from a fresh interpreter.",["PyCIM/RDFXMLReader.py","CIM14/IEC61970/Dynamics/__init__.py","CIM14/IEC61970/Wires/__init__.py","CIM14/ENTSOE/Dynamics/IEC61970/Dynamics/__init__.py","CIM14/__init__.py","CIM15/__init__.py"])
p("The classes are those of the UML models","Every class of every one of the 16 ecore models under Model has a Python class at the module the packages say, found by its name in the packageMap (except CIM14.ENTSOE.Equipment.OperationalLimit.OperationalLimit, whose name leads to another class), with the supertype, the attributes, the default values, the enumerations, the references, the collections and the kinds of association the model says; there are no other classes or features, except eight features and five classes added by hand to CIM15. A new object starts with zero, 0.0, False, the empty text or the first literal in every attribute it has or inherits according to the model, with None in every single reference and with an empty collection of its own in every other (except one collection of CIM14.ENTSOE.Dynamics.Thing).","all classes of all models with all features inherited, all states of the heap for new objects","1671 classes with 4751 attributes and 2815 references in 16 models; the code was generated from the models once and edited since.",["Model/CIM14/CIM14.ecore","Model/CIM15/CIM15.ecore","CIM14/IEC61970/Core/Terminal.py","CIM15/IEC61970/Wires/ACLineSegment.py"])
p("References connect what the models say they connect (expectation for all inherited references refuted)","For every reference of a model with an opposite, and instances x of its class and y of the class of the opposite (or of classes that inherit them), connecting them by the reference -- by assignment if it is single, by its add method if it is a collection -- succeeds, and then the reference of x leads to y and the opposite of y leads to x, with the references of the graph mutually consistent. (Refuted for the eight classes of CIM15 that inherit two references of the same name: a relay added to the ProtectionEquipments of a breaker does not have the breaker among its ConductingEquipments but among its ProtectedSwitches.)","all models, references with opposites, pairs of instances of subclasses, consistent object graphs","The two ends are written in two different classes, and the classes of the instances may be far below them.",["Model/CIM14/CIM14.ecore","Model/CIM15/CIM15.ecore","CIM15/IEC61970/Wires/ProtectedSwitch.py","CIM15/IEC61970/Core/ConductingEquipment.py"])
p("Documents are read by the types of the models (expectation for big integers refuted)","After a document has been read, every attribute that the model gives the class of an object, itself or by inheritance, and that was stated by texts only has a value of the type the model says: the initial value if it was not stated, and what its last text stands for if it was. A literal of an enumeration of the model stated by a resource ending in a dot and its name is the value of the attribute. (That integers are numbers is refuted: attributes of type EBigInteger, like GeneratingUnit.modelDetail, hold text.)","all models, classes, inherited attributes, documents, dictionaries and object graphs","Conversion goes by the type of the value an attribute happens to have, not by a declared type, so it depends on every constructor on the way.",["Model/CIM14/CIM14.ecore","Model/CIM15/CIM15.ecore","PyCIM/RDFXMLReader.py","CIM15/IEC61970/Generation/Production/GeneratingUnit.py"])
p("What cimread returns can be written","cimwrite succeeds exactly when every value of the dictionary is a CIM object whose UUID is a string, that has every attribute of its class and every reference of its class that is not a collection, where each reference is None or an object with a UUID. After a successful read of a compatible, coherent document into a new dictionary this is the case, so cimwrite succeeds; in the fourteen profiles, such a document whose attribute texts can be converted is read and written without an exception.","all documents, object graphs without objects or lists in ordinary attributes, dictionaries, encodings and profiles","Round-trip tests write the few sample files; success depends on each attribute and reference of each class having a value after reading.",["PyCIM/RDFXMLReader.py","PyCIM/RDFXMLWriter.py"])
p("Assigning and adding objects of an unrelated class (expectation that a failed assignment changes nothing refuted)","Assigning to the single end of a one-to-many association a number, a string or an object without the opposite collection raises AttributeError, or TypeError if the object has a single attribute of that name; the assignment has been made nevertheless: the object has left its old collection, refers to the value and the graph is inconsistent. The same holds for a number or string at a one-to-one end, whose old partner is released; an object without the opposite end is accepted there silently and gets a stray attribute and a hidden one. Adding unrelated objects to a one-to-many collection raises nothing and adds nothing, it only sets an ordinary attribute of them; adding one to a many-to-many collection raises AttributeError and changes nothing.","all class tables, consistent object graphs, association ends, values and lists of objects","Tests assign objects of the right classes; what a wrong class does depends on the kind of the end and on attributes the object happens to have.",["CIM14/IEC61970/Core/Terminal.py","CIM14/IEC61970/Core/ConnectivityNode.py"])
p("Read, write and read again (expectation for unset phases refuted)","After reading a clean document (compatible and coherent, no characters XML cannot carry, no second identifiers, enumerations given as resources) into a new dictionary, cimwrite succeeds; its text is well formed, reading it gives a copy of the objects, attributes and references, and writing that copy gives the same text, over any number of round trips. In the fourteen profiles the first read does not raise either. The phase of an ACLineSegmentPhase of CIM15 that is not stated is None after the first read and the string None after the second.","all clean documents, class tables, encodings and numbers of round trips, given that the repr of a float is converted to the same float","Tests write and read back the sample files once; that nothing changes depends on every attribute default, enumeration, reference and character of every document.",["PyCIM/RDFXMLReader.py","PyCIM/RDFXMLWriter.py","CIM15/IEC61970/WiresPhaseModel/ACLineSegmentPhase.py"])
p("Attributes have the types the classes declare (expectation for all attributes refuted)","In all sixteen packages _attr_types lists exactly the attributes of each class, with the type of their default in _defaults and in the constructor; only ACLineSegmentPhase.phase of CIM15 is declared str and starts as None. The declared types are those of the ecore models (dates, big integers and enumerations are str). After a successful read every attribute that is given by texts, or not at all, is of the declared type; one given by a resource is a string, whatever its type.","all classes, attributes, documents, dictionaries and graphs read into","Nothing in the code looks at _attr_types or checks a value against it, so a test would have to read every attribute of 1676 classes.",["PyCIM/RDFXMLReader.py","CIM14/IEC61970/Core/Terminal.py","CIM15/IEC61970/WiresPhaseModel/ACLineSegmentPhase.py"])
p("References without an opposite (expectation that collections hold an object once refuted)","Assigning any value but a list to a reference that has no opposite in the model changes that attribute of that object and nothing else, keeps the graph consistent, and the value is found there afterwards. Such references have no methods addP and removeP. Where they are collections, and nowhere else, there are add_P and remove_P: add_P appends its arguments in order, and changes nothing else; remove_P removes the first occurrence of each argument in turn, and raises ValueError at the first that is not there. (That such a collection holds an object once is refuted: adding twice gives two entries.)","all models, references without opposite, instances of subclasses, values, object graphs","197 references in 16 models; the two kinds of methods differ by an underscore, and the reader looks for the ones these collections do not have.",["CIM14/IEC61970/Protection/ProtectionEquipment.py","CIM14/ENTSOE/Dynamics/Thing.py","CIM14/IEC61968/Common/ActivityRecord.py","Model/CIM14/CIM14.ecore"])
for x in P:
    if x['id'] in R:
        st,t=R[x['id']]; x['statement']=st
        if t: x['title']=t
open('/verif/properties.jsonl','w').write('\n'.join(json.dumps(x) for x in P)+'\n')
print(len(P))

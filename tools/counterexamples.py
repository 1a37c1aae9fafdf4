# Programs that show where melodia does not do what properties.jsonl says (claims with a theorem ..._refuted).
# They are not run by Python: source_trees.py turns them into syntax trees (PyCounter.v), and C79 is about
# running these on the machine.
from melodia.core import Note, Signature, Tone, Track
from melodia.io import midi
from melodia.io.midi import MIDIWriter


def c03():
    a = Signature(1, 2)
    b = Signature(1, 4)
    return a < b and b < a and a <= b and b <= a and a != b


def c10():
    return Tone.from_notation('C4x') == Tone.from_notation('C4')


def c16():
    a = Note(0, (1, 2))
    b = Note(0, (1, 4))
    return a < b and b < a and a != b


def c19():
    t = Track()
    u = Track()
    t.add(Note(0, (1, 2)), (0, 1))
    u.add(Note(0, (1, 2)), (0, 1))
    t.add(Note(0, (1, 4)), (0, 1))
    u.add(Note(0, (1, 4)), (0, 1))
    for position, note in t:
        pass
    t.add(Note(0, (1, 2)), (0, 1))
    u.add(Note(0, (1, 2)), (0, 1))
    return t != u


def c21():
    t = Track()
    t.add(Note(0, (1, 8)), (0, 1))
    t.add(Note(0, (1, 1)), (0, 1))
    return t.length == Signature(1, 8)


def c21_shrinks():
    t = Track()
    t.add(Note(0, (9, 8)), (0, 1))
    before = t.length
    t.add(Note(0, (1, 1)), (0, 1))
    return before == Signature(9, 8) and t.length == Signature(1, 1)


def c22():
    t = Track()
    t.add([Note(0, (1, 8)), Note(0, (1, 1))])
    return t.length == Signature(1, 8)


def c25():
    t = Track(content=[(Note(1), (0, 1))])
    u = Track()
    v = Track(content=[(Note(2), (0, 1))])
    return t == u and u == v and t != v


def c26():
    t = Track()
    t.add(Note(0, (1, 2)), (0, 1))
    t.add(Note(0, (1, 4)), (0, 1))
    u = Track()
    u.add(Note(0, (1, 4)), (0, 1))
    u.add(Note(0, (1, 2)), (0, 1))
    return t != u


def c33():
    return MIDIWriter(480).dumps(Track())


def c40():
    t = Track()
    t.add(Note(36, (1, 4), 1.0), (0, 1))
    t.add(Note(36, (0, 1), 1.0), (0, 1))
    return len(t) == 2 and len(midi.loads(midi.dumps(t))) == 1


def c41():
    t = Track()
    t.add(Note(36, (1, 2), 0.5), (0, 1))
    t.add(Note(36, (1, 2), 0.5), (1, 4))
    return len(t) == 2 and len(midi.loads(midi.dumps(t))) == 1


def c42():
    return midi.loads(b'MThd\x00\x00\x00\x06\x00\x00\x00\x01\x00\x00'
                      b'MTrk\x00\x00\x00\x0c\x00\x90\x3c\x40\x60\x80\x3c\x40\x00\xff\x2f\x00')


def c44():
    t = midi.loads(b'MThd\x00\x00\x00\x06\x00\x00\x00\x01\x00\x60'
                   b'MTrk\x01\x00\x00\x04\x00\xff\x2f\x00')
    return len(t) == 0


def c45():
    return midi.loads(b'MThd\x00\x00\x00\x06\x00\x00\x00\x01\x00\x60'
                      b'MTrk\x00\x00\x00\x08\x00\xf0\x01\xf7\x00\xff\x2f\x00')


def c47():
    return midi.loads(MIDIWriter(channel=3).dumps(Track()), 3)


def c48():
    data = (b'MThd\x00\x00\x00\x06\x00\x00\x00\x01\x00\x60'
            b'MTrk\x00\x00\x00\x2e\x00\xff\x20\x01\x00\x00\xff\x58\x04\x07\x03\x18\x08'
            b'\x00\xff\x20\x01\x01\x00\xff\x58\x04\x03\x02\x18\x08'
            b'\x00\x90\x3c\x40\x60\x80\x3c\x00\x00\x91\x3c\x40\x60\x81\x3c\x00\x00\xff\x2f\x00')
    return midi.loads(data).signature == Signature(3, 4) and midi.loads(data, 0).signature == Signature(7, 8)


def c52():
    t = Track()
    t.add(Note(36, (1, 2), 0.5), (0, 1))
    t.add(Note(36, (1, 4), 1.0), (0, 1))
    u = Track()
    u.add(Note(36, (1, 4), 1.0), (0, 1))
    u.add(Note(36, (1, 2), 0.5), (0, 1))
    return midi.dumps(t) != midi.dumps(u)


def c53():
    t = Track()
    t.add(Note(36, (1, 4), 1.0), (43, 512))
    once = midi.loads(midi.dumps(t))
    twice = midi.loads(midi.dumps(once))
    return once != twice
